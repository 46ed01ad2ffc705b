(** Entries that keep to the format are read without an exception. *)
From Coq Require Import String List Ascii NArith ZArith Bool Arith Lia.
From Coq Require Import Floats.SpecFloat.
From Verif.Model Require Import Py PyFloat Utilities Dicts Particle Reaction Field Section Entry Columns Dataset Pyparsing Grammars.
From Verif.Spec Require Import Text Exfor Tables DataSets Merging Codes Balance General Known GeneralKnown Names References Document WellWritten.
From Verif.Proofs Require Import StrLemmas NumLemmas IntLemmas ReactionLemmas DictLemmas FieldLemmas BibLemmas DataLemmas EntryLemmas EntryDataLemmas GrammarLemmas BalanceLemmas KnownLemmas GeneralLemmas IsomerLemmas MonitorLemmas InstituteLemmas ReferenceLemmas NamesExamples TextTableLemmas DocumentLemmas.
Import ListNotations.
Local Open Scope string_scope.
Local Open Scope list_scope.
Local Open Scope nat_scope.

(** ** Tables *)

Lemma settled : forall rows k m, 0 < k -> In m [rows; rows + 2; (rows + 2) * k] ->
  settle_numrows (Z.of_nat (2 + (rows + 2) * k)) (Z.of_nat m) (Z.of_nat k) = Ok (Z.of_nat rows).
Proof.
  intros rows k m K I.
  destruct (settle_iff (Z.of_nat (2 + (rows + 2) * k)) (Z.of_nat m) (Z.of_nat k)) as [(n & E)|(_ & N1 & N2 & N3)]; [lia| |].
  - rewrite E. f_equal. apply settle_spec in E; [|lia].
    destruct I as [<-|[<-|[<-|[]]]].
    + destruct E as [(_ & Q)|[(N & _)|(N & _)]]; [exact Q|lia|lia].
    + destruct E as [(Q & _)|[(_ & _ & Q)|(_ & N & _)]]; [nia|lia|lia].
    + destruct E as [(Q & _)|[(_ & C & Q)|(_ & N & _ & Q)]].
      * exfalso. nia.
      * assert (k = 1) by nia. lia.
      * rewrite Nat2Z.inj_mul, Z.div_mul in Q by lia. lia.
  - exfalso. destruct I as [<-|[<-|[<-|[]]]]; lia.
Qed.

Lemma map_res_zip : forall (A B : Type) (f : A -> res B) l, (forall x, In x l -> exists y, f x = Ok y) -> exists ys, map_res f l = Ok ys.
Proof.
  induction l as [|x l IH]; intros H; [now exists []|]. destruct (H x (or_introl eq_refl)) as (y & Y).
  destruct IH as (ys & E); [intros z I; apply H; now right|]. exists (y :: ys). cbn [map_res]. now rewrite Y, E.
Qed.
Lemma collapse_total : forall lines k rows, 0 < k -> length lines = 2 + rows * k ->
  exists c, collapse lines (Z.of_nat k) = Ok c /\ length c = rows /\
    forall i, i < rows -> nth_error c i = Some (concat (map row_part (row_lines lines k i))).
Proof.
  intros lines k rows K L.
  assert (E : exists c, collapse lines (Z.of_nat k) = Ok c).
  { unfold collapse. destruct (Z.eqb_spec (Z.of_nat k) 0); [lia|]. apply map_res_zip. intros z I.
    unfold zrange in I. replace (0 <? Z.of_nat k)%Z with true in I by (symmetry; apply Z.ltb_lt; lia).
    apply in_map_iff in I. destruct I as (i & <- & I). apply in_seq in I. destruct I as [_ I]. cbn [Nat.add] in I.
    assert (i < rows).
    { enough ((Z.of_nat (length lines) - 1 - 1 + Z.of_nat k - 1) / Z.of_nat k <= Z.of_nat rows)%Z by lia.
      rewrite L. apply Z.lt_succ_r. apply Z.div_lt_upper_bound; [lia|]. nia. }
    destruct (map_res_zip _ _ (fun j => l <- zidx lines (1 + Z.of_nat i * Z.of_nat k + Z.of_nat j)%Z ;; Ok (row_part l)) (seq 0 (Z.to_nat (Z.of_nat k)))) as (parts & P).
    - intros j J. apply in_seq in J. rewrite Nat2Z.id in J.
      destruct (nth_error lines (1 + i * k + j)) as [l|] eqn:N.
      + exists (row_part l). replace (1 + Z.of_nat i * Z.of_nat k + Z.of_nat j)%Z with (Z.of_nat (1 + i * k + j)) by nia.
        apply zidx_nat in N. now rewrite N.
      + apply nth_error_None in N. nia.
    - rewrite P. eexists. reflexivity. }
  destruct E as (c & E). exists c. split; [exact E|].
  assert (length c = rows).
  { unfold collapse in E. destruct (Z.eqb_spec (Z.of_nat k) 0); [lia|].
    apply map_res_Forall2 in E. apply Forall2_len in E. rewrite <- E. unfold zrange.
    replace (0 <? Z.of_nat k)%Z with true by (symmetry; apply Z.ltb_lt; lia).
    rewrite map_length, seq_length, L.
    replace (Z.of_nat (2 + rows * k) - 1 - 1 + Z.of_nat k - 1)%Z with (Z.of_nat rows * Z.of_nat k + (Z.of_nat k - 1))%Z by lia.
    rewrite Z.div_add_l, Z.div_small by lia. lia. }
  apply collapse_rows in E; [|exact K]. destruct E as (A & B & C).
  split; [assumption|]. intros i I. apply C. lia.
Qed.

Lemma header_total : forall c n labels units pointers r0 r1, nth_error c 0 = Some r0 -> nth_error c 1 = Some r1 ->
  forall s, exists st, fold_res (header_step c) (seq s n) (labels, units, pointers) = Ok st.
Proof.
  intros c n labels units pointers r0 r1 N0 N1. revert labels units pointers. apply idx_ok in N0. apply idx_ok in N1.
  induction n as [|n IH]; intros labels units pointers s; [eexists; reflexivity|]. cbn [seq fold_res]. unfold header_step at 1. rewrite N0, N1. cbn [bind].
  destruct (length (cell r0 s) =? 11); cbn [bind]; apply IH.
Qed.

Lemma numeric_read : forall tag lines, numeric_table lines -> exists d, X4DataSection tag lines = Ok d.
Proof.
  intros tag lines (cols & rows & P & C & (l0 & rest & w0 & w1 & w2 & ws & EL & W & N1 & m & N2 & IM) & LL & HR).
  cbv zeta in *. destruct (lpr_pos cols P) as [LP KP]. set (k := lines_per_row cols) in *.
  unfold X4DataSection.
  replace (idx lines 0) with (Ok l0 : res str) by now rewrite EL. cbn [bind].
  apply words_split in W. change (slice_to l0 33) with (columns 0 33 l0). rewrite W.
  cbn [idx nth_error of_option bind]. rewrite (number_int _ _ N1). cbn [of_option bind]. rewrite (number_int _ _ N2). cbn [of_option bind].
  change ((Z.of_nat cols - 1) / 6 + 1)%Z with (lpr_of (Z.of_nat cols)). rewrite LP, LL, (settled rows k m KP IM). cbn [bind].
  destruct (collapse_total lines k (rows + 2) KP LL) as (c & EC & LC & NC). rewrite EC. cbn [bind].
  destruct (header_total c (Z.to_nat (Z.of_nat cols)) [] [] [] _ _ (NC 0 ltac:(lia)) (NC 1 ltac:(lia)) 0) as ([[la un] po] & ->). cbn [bind].
  match goal with |- context [map_res ?f (seq 0 ?n)] => destruct (map_res_zip _ _ f (seq 0 n)) as (rs & E) end.
  - intros i I. apply in_seq in I. rewrite Nat2Z.id in I. destruct I as [_ I]. cbn [Nat.add] in I.
    set (r := concat (map row_part (row_lines lines k (2 + i)))).
    assert (Nr : idx c (2 + i) = Ok r) by (apply idx_ok, NC; lia).
    assert (RW : map_res (fun j => r <- idx c (2 + i) ;; Ok (cell r j)) (seq 0 (Z.to_nat (Z.of_nat cols))) = Ok (map (cell r) (seq 0 cols))).
    { rewrite Nat2Z.id, <- map_res_total. apply map_res_ext. intros j _. now rewrite Nr. }
    rewrite RW. cbn [bind].
    destruct (map_res_zip _ _ parseFORTRANNumber (map (cell r) (seq 0 cols))) as (vs & ->).
    + intros t T. apply in_map_iff in T. destruct T as (j & <- & J). apply in_seq in J. destruct J as [_ J]. cbn [Nat.add] in J.
      destruct (HR i j I J) as (t & x & Tc & Nt). exists x. rewrite <- (number_parsed _ _ Nt). f_equal.
      apply (cell_unique lines (1 + (2 + i) * k) j); [|exact Tc]. apply row_cell; [exact C| |now apply col_line]. rewrite LL. nia.
    + cbn [bind]. eexists. reflexivity.
  - rewrite E. cbn [bind]. eexists. reflexivity.
Qed.

(** ** Fields *)

Lemma plain_pointers : forall fld f, X4PlainField fld = Ok f -> Forall (fun pl => pointer_lines fld (fst pl) (snd pl)) (f_dict f).
Proof.
  intros fld f P. apply Forall_forall. intros [p ls] I. pose proof (plain_nodup _ _ P) as N.
  pose proof (dget_in p ls _ N I) as G. destruct (plain_field_spec _ _ P) as (_ & (texts & T & D) & _).
  rewrite D in G. exists texts. split; [exact T|]. cbn [fst snd]. destruct (marked p (marks " " fld) texts); [discriminate|].
  injection G as <-. split; [reflexivity|discriminate].
Qed.

Lemma put_line_head : forall p t d q, exists v w, put_line ((p, t) :: d) q v = (p, w) :: tl (put_line ((p, t) :: d) q v).
Proof. intros p t d q. exists [], (if Ascii.eqb q p then t ++ [[]] else t). unfold put_line. cbn [dget dset]. destruct (Ascii.eqb q p); reflexivity. Qed.
Lemma fold_head : forall lines cur p t d, exists w d', snd (fold_left plain_step lines (cur, (p, t) :: d)) = (p, w) :: d'.
Proof.
  induction lines as [|l lines IH]; intros cur p t d; [cbn; eauto|].
  cbn [fold_left]. rewrite plain_step_eq. cbv zeta. unfold put_line at 1. cbn [dget dset].
  match goal with |- context [Ascii.eqb ?q p] => destruct (Ascii.eqb q p) eqn:E; cbn [dset]; rewrite ?E end; apply IH.
Qed.
Lemma plain_first : forall fld f, X4PlainField fld = Ok f -> exists p ps ls d, marks " " fld = p :: ps /\ f_dict f = (p, ls) :: d.
Proof.
  intros fld f P. destruct (plain_ok _ _ P) as (l & ls & -> & _ & ->). cbn [fold_left marks].
  rewrite plain_step_eq. cbv zeta. change (" "%char) with sp. unfold put_line at 1. cbn [dget dset app].
  match goal with |- context [(?q, [(?q, ?t)])] => destruct (fold_head ls q q t []) as (w & d & E); exists q end.
  exists (marks (if Ascii.eqb (column11 l) sp then sp else column11 l) ls), w, d. split; [reflexivity|exact E].
Qed.

Lemma texts_exist : forall ls, exists parts, Forall2 trimmed ls parts /\ parts = map strip ls.
Proof. intro ls. exists (map strip ls). split; [|reflexivity]. induction ls; constructor; [apply strip_trimmed|assumption]. Qed.
Lemma subfield_text : forall ls, pointer_text ls (subfield_str ls).
Proof. intro ls. destruct (texts_exist ls) as (parts & T & E). exists parts. split; [exact T|]. subst. unfold subfield_str. destruct ls as [|l ls]; [reflexivity|]. symmetry. now apply blank_join. Qed.

(** What is read: every measurement can be printed. *)
Definition fair (c : codes) (m : measurement) : Prop :=
  match m with MRxn rx => shown c (ERxn rx) | MComb data | MIso data => Forall (shown c) data end.

Section Fields.
Context (c : codes) (e : env) (D : well_dictionaries c e).

Lemma reaction_reads : forall text, reaction_code c text -> exists m line, reaction_of_text e text = Ok (m, line) /\ fair c m.
Proof.
  assert (PAREN : forall data, Forall (shown c) data -> Forall (shown c) (EOp (tx "(") :: data ++ [EOp (tx ")")])).
  { intros data P. constructor; [apply shown_op|]. apply Forall_app. split; [exact P|]. constructor; [apply shown_op|constructor]. }
  intros text [(r & line & G & K & F)|[(r & n & q & line & G & S & F)|(ts & l & line & C & F & A)]].
  - destruct (general_made c (well_compounds _ _ D) (e_compounds e) r G K (well_named _ _ D)) as (rx & T & J & pss & rs & X & M & _).
    exists (MRxn rx), (PTok line). split; [exact (general_field c (well_particles _ _ D) (well_compounds _ _ D) e r line text rx (well_grammars _ _ D) G F X)|].
    cbn [fair]. eapply shown_rxn; eauto.
  - destruct (states_text c (well_particles _ _ D) (well_compounds _ _ D) e r n q line text (well_grammars _ _ D) (well_named _ _ D) (well_depth _ _ D) G S F) as (data & E & _ & P).
    eexists _, _. split; [exact E|]. cbn [fair]. now apply PAREN.
  - destruct (states_combination c (well_particles _ _ D) (well_compounds _ _ D) e ts l line text (well_grammars _ _ D) (well_named _ _ D) (well_depth _ _ D) C F A) as (data & E & _ & P).
    eexists _, _. split; [exact E|]. cbn [fair]. now apply PAREN.
Qed.

Lemma reactions_total : forall fld, fld <> [] -> written_reactions c fld ->
  exists f rs, X4ReactionField e fld = Ok (f, rs) /\ Forall (fun pr => fair c (fst (snd pr))) rs.
Proof.
  intros fld N W. destruct (plain_field_total fld N) as (f & P). pose proof (plain_pointers _ _ P) as Q.
  unfold X4ReactionField. rewrite P. cbn [bind].
  assert (M : exists rs, map_res (fun pl => r <- reaction_of_text e (subfield_str (snd pl)) ;; Ok (fst pl, r)) (f_dict f) = Ok rs /\
                Forall (fun pr => fair c (fst (snd pr))) rs).
  { clear P. induction Q as [|[p ls] d H _ (rs & E & A)]; [exists []; split; [reflexivity|constructor]|].
    destruct (reaction_reads _ (W p ls _ H (subfield_text ls))) as (m & line & R & Fm).
    exists ((p, (m, line)) :: rs). cbn [map_res fst snd]. rewrite R. cbn [bind]. rewrite E. split; [reflexivity|constructor; assumption]. }
  destruct M as (rs & E & A). exists f, rs. rewrite E. split; [reflexivity|exact A].
Qed.

Definition fair_monitor (x : option measurement * ptree * option str) : Prop := forall m, fst (fst x) = Some m -> fair c m.
Lemma monitor_total : forall text, monitor_text c text -> exists m, monitor_reaction e text = Ok m /\ fair_monitor m.
Proof.
  intros text [rest N R|n rest N M R|t N M].
  - destruct (reaction_reads _ R) as (m & line & E & F). eexists. split; [exact (monitor_plain e rest _ N E)|]. intros m' H. cbn [fst] in H. congruence.
  - destruct (reaction_reads _ R) as (m & line & E & F). eexists. split; [exact (monitor_headed e n rest _ N M E)|]. intros m' H. cbn [fst] in H. congruence.
  - eexists. split; [exact (MonitorLemmas.monitor_remark e t N M)|]. intros m' H. discriminate H.
Qed.
Lemma monitor_items : forall before remark groups texts, Forall2 remark_item before remark -> length before <= 1 ->
  Forall2 monitor_item groups texts -> monitor_lines (concat (before ++ groups)) [] = Ok (remark ++ texts).
Proof.
  intros before remark groups texts B L G. inversion B as [|b r bs rs H B']; subst; [now apply monitor_groups|].
  destruct bs; [|cbn in L; lia]. inversion B'; subst. destruct H as [line core lines text T O R].
  cbn [app concat monitor_lines]. rewrite (bool_false _ _ (opens_twice_iff line)) by (intro; now apply O, opens_twice_opens).
  rewrite (bool_false _ _ (opens_iff line)) by exact O. apply strip_iff in T. rewrite T.
  change ([core]) with ([] ++ [core]). rewrite (monitor_remarks lines text R (concat groups) [] core). cbn [app].
  assert (X : forall ds, monitor_lines (concat groups) ds = Ok (ds ++ texts)); [|apply X].
  clear - G. induction G as [|g t gs ts Hg F IH]; intro ds; cbn [concat].
  - cbn. now rewrite app_nil_r.
  - rewrite (monitor_group g t Hg), IH. now rewrite <- app_assoc.
Qed.
Lemma map_res_both : forall (A B : Type) (f : A -> res B) (Q : B -> Prop) l, (forall x, In x l -> exists y, f x = Ok y /\ Q y) ->
  exists ys, map_res f l = Ok ys /\ Forall Q ys.
Proof.
  intros A B f Q. induction l as [|x l IH]; intro H; [exists []; split; [reflexivity|constructor]|].
  destruct (H x (or_introl eq_refl)) as (y & Y & Qy). destruct IH as (ys & YS & F); [intros z I; apply H; now right|].
  exists (y :: ys). cbn [map_res]. rewrite Y. cbn [bind]. rewrite YS. split; [reflexivity|now constructor].
Qed.
Lemma monitors_total : forall fld, fld <> [] -> written_monitors c fld ->
  exists f ms, X4MonitorField e fld = Ok (f, ms) /\ Forall (fun pl => Forall fair_monitor (snd pl)) ms.
Proof.
  intros fld N W. destruct (plain_field_total fld N) as (f & P). pose proof (plain_pointers _ _ P) as Q.
  unfold X4MonitorField. rewrite P. cbn [bind].
  match goal with |- context [map_res ?g (f_dict f)] =>
    destruct (map_res_both _ _ g (fun pl => Forall fair_monitor (snd pl)) (f_dict f)) as (ms & -> & F) end; [|cbn [bind]; eauto].
  intros [p ls] I. rewrite Forall_forall in Q. apply Q in I. cbn [fst snd] in *.
  destruct (W p ls I) as (before & remark & groups & texts & -> & B & L & G & A).
  rewrite (monitor_items _ _ _ _ B L G). cbn [bind]. destruct (map_res_both _ _ (monitor_reaction e) fair_monitor (remark ++ texts)) as (l & -> & F).
  - intros t J. rewrite Forall_forall in A. now apply monitor_total, A.
  - cbn [bind]. eauto.
Qed.

Lemma institutes_total : forall fld, fld <> [] -> written_institutes fld -> exists f rs, X4InstituteField e fld = Ok (f, rs).
Proof.
  intros fld N W. destruct (plain_field_total fld N) as (f & P). pose proof (plain_pointers _ _ P) as Q.
  assert (A : exists iss, Forall2 (fun is pl => is <> [] /\ institutes_text is (subfield_str (snd pl)) /\ no_tabs (subfield_str (snd pl))) iss (f_dict f)).
  { clear P. induction Q as [|[p ls] d H _ (iss & F)]; [exists []; constructor|].
    destruct (W p ls _ H (subfield_text ls)) as (is & X). exists (is :: iss). constructor; [exact X|exact F]. }
  destruct A as (iss & F).
  destruct (institute_field c e fld f iss (well_grammars _ _ D) P (well_institutes _ _ D) F) as (rs & E & _). eauto.
Qed.

Lemma authors_total : forall fld, fld <> [] -> written_authors fld -> exists a, X4AuthorField e fld = Ok a.
Proof.
  intros fld N W. destruct (forallb (fun l => negb (contains (lit "No author given") l || contains (lit ".NOT GIVEN.") l)) fld) eqn:M.
  - apply missing_no in M. destruct W as [W|W]; [contradiction|].
    destruct (plain_field_total fld N) as (f & P). pose proof (plain_pointers _ _ P) as Q.
    assert (A : exists nss, Forall2 (fun names pl => author_list names (concat (map strip (snd pl)))) nss (f_dict f)).
    { clear P. induction Q as [|[p ls] d H _ (nss & F)]; [exists []; constructor|].
      destruct (texts_exist ls) as (parts & T & ->). destruct (W p ls _ H T) as (ns & X). exists (ns :: nss). constructor; [exact X|exact F]. }
    destruct A as (nss & F). destruct (author_field c e fld f nss (well_grammars _ _ D) P M F) as (a & E & _). eauto.
  - assert (X : author_missing fld).
    { apply not_true_iff_false in M. rewrite forallb_forall in M.
      assert (Y : exists l, In l fld /\ (contains (lit "No author given") l || contains (lit ".NOT GIVEN.") l) = true).
      { destruct (existsb (fun l => contains (lit "No author given") l || contains (lit ".NOT GIVEN.") l) fld) eqn:E.
        - now apply existsb_exists in E.
        - exfalso. apply M. intros l I. destruct (contains (lit "No author given") l || contains (lit ".NOT GIVEN.") l) eqn:C; [|reflexivity].
          enough (existsb (fun l => contains (lit "No author given") l || contains (lit ".NOT GIVEN.") l) fld = true) by congruence.
          apply existsb_exists. eauto. }
      destruct Y as (l & I & Y). exists l. split; [exact I|]. apply orb_true_iff in Y.
      destruct Y as [Y|Y]; [left|right]; now apply contains_mentions. }
    destruct (no_authors e fld X) as (a & E & _). eauto.
Qed.

Lemma references_total : forall fld, fld <> [] -> written_references fld -> exists f x, X4ReferenceField e fld = Ok (f, x).
Proof.
  intros fld N (NL & W & W0). destruct (plain_field_total fld N) as (f & P). pose proof (plain_pointers _ _ P) as Q.
  destruct (plain_first _ _ P) as (p & ps & ls & d & M & E). rewrite E in Q. inversion Q as [|? ? Q0 Q1]; subst. cbn [fst snd] in Q0.
  assert (C : forall p ls, pointer_lines fld p ls -> Forall (fun l => ~ In nl l) ls).
  { clear - NL. intros p ls (texts & T & -> & _). 
    assert (X : Forall (fun l => ~ In nl l) texts).
    { revert texts T. induction NL as [|l fld H _ IH]; intros texts T; inversion T as [|? y ? ys T0 T1]; subst; constructor; [|now apply IH].
      destruct T0 as (b & E & _). intro I. apply H. change (ascii_of_N 10) with nl.
      assert (J : In nl (columns 11 66 l)) by (rewrite E; apply in_or_app; now left).
      unfold columns in J. apply firstn_In in J. now apply skipn_In in J. }
    revert X. generalize (marks " " fld). clear. intros ms X. revert ms. induction X as [|x xs H _ IH]; intros [|m ms]; cbn [marked]; try constructor.
    destruct (Ascii.eqb p m); [constructor; [exact H|apply IH]|apply IH]. }
  destruct (W0 p ps ls M Q0) as (r & rs & (RL & RT) & R0).
  assert (A : exists rss, Forall2 (fun rs pl => pointer_refs rs (snd pl) /\ Forall (fun l => ~ In nl l) (snd pl)) rss d /\
                Forall (Forall (fun r => In (rt_type r) (publication_types ++ numbered_types))) rss).
  { clear - W C Q1. induction Q1 as [|[q ks] d H _ (rss & F & G)]; [exists []; split; constructor|]. cbn [fst snd] in H.
    destruct (W q ks H) as (rs & A & B). exists (rs :: rss). split; constructor; try assumption. split; [exact A|]. cbn [snd]. now apply (C q). }
  destruct A as (rss & F & G).
  destruct (reference_field c e fld f ((r :: rs) :: rss) r rs rss (well_grammars _ _ D) (well_rows _ _ D) P) as (x & x0 & X & _); eauto.
  - rewrite E. constructor; [|exact F]. cbn [snd]. split; [exact RL|now apply (C p)].
Qed.

(** What is looked up in the fields of a keyword. *)
Definition sound_field (kw : str) (f : Field.field) : Prop :=
  match f with
  | FReaction _ rs => kw = lit "REACTION" /\ Forall (fun pr => fair c (fst (snd pr))) rs
  | FMonitor _ ms => kw = lit "MONITOR" /\ Forall (fun pl => Forall fair_monitor (snd pl)) ms
  | FReference _ _ => kw = lit "REFERENCE"
  | FAuthor _ => kw = lit "AUTHOR"
  | FTitle _ => kw = lit "TITLE"
  | FInstitute _ _ => kw = lit "INSTITUTE"
  | FPlain _ => ~ In kw (map lit ["REACTION"; "MONITOR"; "REFERENCE"; "AUTHOR"; "TITLE"; "INSTITUTE"])
  end.
Lemma field_total : forall kw fld, field_keyword kw fld -> well_field c fld ->
  exists f, make_field e (key_of kw) fld = Ok f /\ sound_field kw f.
Proof.
  intros kw fld K W. assert (N : fld <> []) by (destruct K as (l & ls & -> & _); discriminate).
  destruct kw as [|k0 kw0].
  { unfold make_field. cbn [key_of tag_eqb]. destruct (plain_field_total fld N) as (f & ->). cbn [bind]. exists (FPlain f). split; [reflexivity|].
    cbn [sound_field]. intro I. repeat (destruct I as [I|I]; [discriminate I|]). destruct I. }
  change (key_of (k0 :: kw0)) with (Some (k0 :: kw0)). remember (k0 :: kw0) as kw eqn:Ek. clear Ek k0 kw0.
  assert (S : forall s, str_eqb kw (lit s) = true -> field_keyword (tx s) fld).
  { intros s B. apply str_eqb_eq in B. subst kw. exact K. }
  unfold make_field. cbn [tag_eqb].
  destruct (str_eqb kw (lit "REACTION")) eqn:B1.
  { destruct (reactions_total fld N (well_reaction _ _ W (S _ B1))) as (f & rs & -> & A). cbn [bind]. eexists. split; [reflexivity|]. cbn [sound_field fst snd].
    split; [now apply str_eqb_eq|exact A]. }
  destruct (str_eqb kw (lit "MONITOR")) eqn:B2.
  { destruct (monitors_total fld N (well_monitor _ _ W (S _ B2))) as (f & ms & -> & A). cbn [bind]. eexists. split; [reflexivity|]. cbn [sound_field fst snd].
    split; [now apply str_eqb_eq|exact A]. }
  destruct (str_eqb kw (lit "REFERENCE")) eqn:B3.
  { destruct (references_total fld N (well_reference _ _ W (S _ B3))) as (f & ms & ->). cbn [bind]. eexists. split; [reflexivity|]. now apply str_eqb_eq. }
  destruct (str_eqb kw (lit "AUTHOR")) eqn:B4.
  { destruct (authors_total fld N (well_author _ _ W (S _ B4))) as (a & ->). cbn [bind]. eexists. split; [reflexivity|]. now apply str_eqb_eq. }
  destruct (str_eqb kw (lit "TITLE")) eqn:B5.
  { destruct (plain_field_total fld N) as (f & ->). cbn [bind]. eexists. split; [reflexivity|]. now apply str_eqb_eq. }
  destruct (str_eqb kw (lit "INSTITUTE")) eqn:B6.
  { destruct (institutes_total fld N (well_institute _ _ W (S _ B6))) as (f & ms & ->). cbn [bind]. eexists. split; [reflexivity|]. now apply str_eqb_eq. }
  destruct (plain_field_total fld N) as (f & ->). cbn [bind]. eexists. split; [reflexivity|]. cbn [sound_field].
  intro I. cbn [map In] in I.
  repeat (destruct I as [I|I]; [symmetry in I; apply str_eqb_eq in I; congruence|]). destruct I.
Qed.
End Fields.

(** ** Sections *)

Definition sound_bib (c : codes) (b : bib) : Prop := forall kw x, dget tag_eqb (key_of kw) (b_dict b) = Some x -> exists f, x = Some f /\ sound_field c kw f.
Definition sound_section (c : codes) (x : str * section) : Prop := str_eqb (fst x) (lit "BIB") = true -> exists b, snd x = SBib b /\ sound_bib c b.
Definition sound_sub (c : codes) (s : subentry) : Prop :=
  (exists a, s_accnum s = Some a) /\ forall x, sub_section s "BIB" = Some x -> exists b, x = SBib b /\ sound_bib c b.

Lemma keyword_of : forall fld, fld <> [] -> exists kw, field_keyword kw fld.
Proof. intros [|l ls] N; [contradiction|]. exists (strip (columns 0 10 l)). exists l, ls. split; [reflexivity|apply strip_trimmed]. Qed.
Lemma last_in : forall (A : Type) (P : A -> Prop) l x, last_such P l x -> In x l /\ P x.
Proof. intros A P l x (a & b & -> & H & _). split; [apply in_or_app; right; now left|exact H]. Qed.

Section Entries.
Context (c : codes) (e : env) (D : well_dictionaries c e).

Lemma fields_nonempty : forall section fs, fields section fs -> Forall (fun fld => fld <> []) fs.
Proof.
  intros section fs (first & rest & -> & (l & ls & -> & _) & K & _). constructor; [discriminate|].
  apply Forall_forall. intros x I. rewrite Forall_forall in K. specialize (K x I). destruct x; [|discriminate].
  destruct K as (? & ? & ? & _). discriminate.
Qed.
Lemma bib_total : forall section, well_bib c section -> exists b, X4BibSection e section = Ok b /\ sound_bib c b.
Proof.
  intros section (fs & F & W).
  assert (CH : bib_chunkify section = fs) by (destruct F as (first & rest & -> & O & K & M); now apply bib_chunkify_fields).
  pose proof (fields_nonempty _ _ F) as NE.
  assert (T : forall b, exists b', fold_res (bib_add e) fs b = Ok b').
  { clear F CH. revert NE. induction W as [|fld fs H _ IH]; intros NE b; [exists b; reflexivity|]. inversion NE as [|? ? N1 N2]; subst.
    destruct (keyword_of fld N1) as (kw & K). destruct (field_total c e D kw fld K H) as (f & E & _).
    cbn [fold_res]. unfold bib_add at 1. rewrite (field_type_spec _ _ K). cbn [bind]. rewrite E. cbn [bind]. now apply IH. }
  destruct (T (mkBib [] [])) as (b & E). exists b.
  assert (E' : X4BibSection e section = Ok b) by (rewrite bib_section_fold, CH; exact E). split; [exact E'|].
  intros kw x G. apply (bib_lookup e section b E') in G. destruct G as (fld & f & L & M & ->). rewrite CH in L.
  apply last_in in L. destruct L as [I K]. rewrite Forall_forall in W. destruct (field_total c e D kw fld K (W fld I)) as (f' & E2 & S).
  exists f. split; [reflexivity|]. congruence.
Qed.

Lemma section_total : forall section, well_section c section -> exists x, make_section e section = Ok x /\ sound_section c x.
Proof.
  intros section [(K & B)|([K|K] & N)]; unfold make_section.
  - rewrite (named_type "BIB" section (or_introl eq_refl) K). change (str_eqb (lit "BIB") (lit "BIB")) with true. cbv iota.
    destruct (bib_total section B) as (b & E & S). rewrite E. cbn [bind]. eexists. split; [reflexivity|]. intros _. exists b. split; [reflexivity|exact S].
  - rewrite (named_type "DATA" section) by (solve [right; left; reflexivity|exact K]). change (str_eqb (lit "DATA") (lit "BIB")) with false. cbv iota.
    destruct (numeric_read (lit "DATA") section N) as (d & E). rewrite E. cbn [bind]. eexists. split; [reflexivity|]. intro H. discriminate H.
  - rewrite (named_type "COMMON" section) by (solve [right; right; left; reflexivity|exact K]). change (str_eqb (lit "COMMON") (lit "BIB")) with false. cbv iota.
    destruct (numeric_read (lit "COMMON") section N) as (d & E). rewrite E. cbn [bind]. eexists. split; [reflexivity|]. intro H. discriminate H.
Qed.

Lemma well_named : forall text, well_subentry c text -> sections_named text.
Proof.
  intros text (_ & lines & bs & L & S & W). exists lines, bs. split; [exact L|]. split; [exact S|].
  apply Forall_forall. intros b I. rewrite Forall_forall in W.
  destruct (W b I) as [(K & _)|([K|K] & _)]; [exists "BIB"|exists "DATA"|exists "COMMON"]; (split; [cbn; auto|exact K]).
Qed.
Lemma subentry_total : forall text, well_subentry c text -> exists s, X4SubEntry e text = Ok s /\ sound_sub c s.
Proof.
  intros text ((num & NU) & lines & bs & L & S & W).
  assert (T : forall d, (forall x, dget str_eqb (lit "BIB") d = Some x -> exists b, x = SBib b /\ sound_bib c b) ->
            exists d', section_fold e bs d = Ok d' /\ (forall x, dget str_eqb (lit "BIB") d' = Some x -> exists b, x = SBib b /\ sound_bib c b)).
  { clear S. induction W as [|b bs H _ IH]; intros d I; [exists d; split; [reflexivity|exact I]|].
    destruct (section_total b H) as (x & E & Sx). unfold section_fold. cbn [fold_res]. rewrite E. cbn [bind]. apply IH.
    intros y G. rewrite (dget_dset _ _ str_eqb str_eqb_eq) in G. destruct (str_eqb (lit "BIB") (fst x)) eqn:Q; [|now apply I].
    injection G as <-. apply Sx. apply str_eqb_eq in Q. now rewrite <- Q. }
  destruct (T []) as (d & E & I); [discriminate|].
  assert (X : X4SubEntry e text = Ok (mkSub (extractX4SubEntryIndex lines) d)).
  { unfold X4SubEntry, X4SubEntry_lines. rewrite (lines_split _ _ L), (sections_chunkify _ _ S). unfold section_fold in E. rewrite E. reflexivity. }
  eexists. split; [exact X|]. split; [|exact I]. exists num. now apply (numbered_accnum e text _ num X).
Qed.

(** ** Entries *)

Lemma first_word : forall l w ws ls, words l (w :: ws) -> exists ws', words (lines_text (l :: ls)) (w :: ws').
Proof.
  intros l w ws ls W. destruct ls as [|l' ls]; [exists ws; exact W|].
  change (lines_text (l :: l' :: ls)) with (l ++ ascii_of_N 10 :: lines_text (l' :: ls)). generalize (lines_text (l' :: ls)). intro r.
  inversion W as [|b w0 B N F|b w0 d rest ws0 B N F X R]; subst.
  - exists (split_ws r). rewrite <- app_assoc. apply Exfor.words_cons; try assumption; [vm_compute; intuition|apply split_words].
  - exists (split_ws (rest ++ ascii_of_N 10 :: r)). rewrite <- app_assoc. rewrite <- app_assoc. cbn [app].
    apply Exfor.words_cons; try assumption. apply split_words.
Qed.
Lemma words_not_blank : forall s w ws, words s (w :: ws) -> strip s <> [].
Proof.
  intros s w ws W E. apply strip_blank in E.
  assert (X : words s []) by now apply Exfor.words_nil. apply words_split in X. apply words_split in W. congruence.
Qed.
Lemma entry_number : forall text rest l ls, lines_of text (l :: ls) -> subent_line l -> length (columns 14 19 l) = 5 ->
  extractX4EntryIndex (text :: rest) = Some (columns 14 19 l).
Proof.
  intros text rest l ls (_ & -> & _) (ws & W) L. destruct (first_word l _ ws ls W) as (ws' & W'). cbn [extractX4EntryIndex].
  destruct (str_eqb (strip (lines_text (l :: ls))) []) eqn:B.
  { apply str_eqb_eq in B. now apply words_not_blank in W'. }
  rewrite (words_split _ _ W'). change (list_ascii_of_string "SUBENT") with (lit "SUBENT").
  change (str_eqb (lit "SUBENT") (lit "ENTRY")) with false. change (str_eqb (lit "SUBENT") (lit "SUBENT")) with true. cbv iota. f_equal.
  unfold slice, columns in *. change (22 - 14) with 8. change (19 - 14) with 5 in *.
  rewrite firstn_firstn. change (Nat.min 5 8) with 5.
  assert (X : exists t, lines_text (l :: ls) = l ++ t).
  { destruct ls as [|l' ls]; [exists []; symmetry; apply app_nil_r|]. eexists. reflexivity. }
  destruct X as (t & ->). rewrite skipn_app, firstn_app. rewrite firstn_length in L.
  replace (5 - length (skipn 14 l)) with 0 by lia. cbn [firstn]. now rewrite app_nil_r.
Qed.

Lemma entry_total : forall acc raw, well_entry c acc raw ->
  exists n s1 b1, X4Entry e raw = Ok n /\ n_accnum n = acc /\ dget tag_eqb (Some (acc ++ lit "001")) (n_subs n) = Some s1 /\
    bib_of s1 = Some b1 /\ (forall k s, In (k, s) (n_subs n) -> sound_sub c s).
Proof.
  intros acc raw W. destruct W as [(text & rest & l & ls & -> & Lt & SL & -> & L5) WS (t1 & bib & L1 & HB)].
  set (raw := text :: rest) in *.
  assert (T : forall d, (forall k s, In (k, s) d -> sound_sub c s) ->
     exists d', fold_res (fun d x => s <- X4SubEntry e x ;; Ok (dset tag_eqb (s_accnum s) s d)) raw d = Ok d' /\ (forall k s, In (k, s) d' -> sound_sub c s)).
  { clear L1. induction WS as [|x xs H _ IH]; intros d I; [exists d; split; [reflexivity|exact I]|].
    destruct (subentry_total x H) as (s & E & S). cbn [fold_res]. rewrite E. cbn [bind]. apply IH.
    intros k s' J. apply (In_dset _ _ _ tag_eqb_eq) in J. destruct J as [[-> ->]|J]; [exact S|]. now apply (I k). }
  destruct (T []) as (d & E & I); [intros k s []|].
  assert (X : X4Entry e raw = Ok (mkEntry (columns 14 19 l) d)).
  { unfold X4Entry. unfold raw at 1. rewrite (entry_number text rest l ls Lt SL L5). rewrite L5, Nat.eqb_refl. cbn [negb]. rewrite E. reflexivity. }
  destruct (entry_last e raw _ _ t1 X L1) as (s1 & E1 & _ & _ & G).
  assert (W1 : well_subentry c t1) by (apply last_in in L1; destruct L1 as [J _]; rewrite Forall_forall in WS; now apply WS).
  destruct (DocumentLemmas.sub_bib e t1 s1 bib E1 (well_named _ W1) HB) as (b1 & _ & B1).
  eexists _, s1, b1. split; [exact X|]. split; [reflexivity|]. split; [exact G|]. split; [exact B1|exact I].
Qed.

Lemma information_total : forall s, sound_sub c s -> exists i s', sub_information s (s_accnum s) = Ok (i, s').
Proof.
  intros s ((a & A) & S). unfold sub_information. rewrite A. destruct (sub_section s "BIB") as [x|] eqn:E; [|cbn [bind]; eauto].
  destruct (S x eq_refl) as (b & -> & B). cbn [of_option bind].
  assert (F : forall s x, lit s <> [] -> bib_field b s = Some x -> exists f, x = Some f /\ sound_field c (lit s) f).
  { intros k y N H. apply B. destruct (lit k) eqn:Q; [contradiction|]. unfold bib_field in H. rewrite Q in H. exact H. }
  unfold X4BibMetaData.
  assert (P : forall g kw, sound_field c (lit kw) (FPlain g) -> In kw ["REACTION"; "MONITOR"; "REFERENCE"; "AUTHOR"; "TITLE"; "INSTITUTE"] -> False).
  { intros g kw H I. cbn [sound_field] in H. apply H. now apply in_map. }
Ltac known_field F P kw := 
  match goal with |- context [bib_field ?b kw] => 
    let y := fresh "y" in let Y := fresh "Y" in destruct (bib_field b kw) as [y|] eqn:Y;
    [apply F in Y; [|discriminate]; let f := fresh "f" in let SF := fresh "SF" in destruct Y as (f & -> & SF); destruct f;
     try (exfalso; solve [cbn [sound_field] in SF; discriminate SF | discriminate (proj1 SF) | apply P in SF; [exact SF|cbn; tauto]])|];
    cbn [bind] end.
  known_field F P "AUTHOR"; known_field F P "INSTITUTE"; known_field F P "TITLE"; known_field F P "REFERENCE"; known_field F P "REACTION"; known_field F P "MONITOR"; eauto.
Qed.

(** setData raises nothing but IndexError. *)
Definition only_index {A} (r : res A) : Prop := forall x, r = Raise x -> x = IndexError.
Lemma only_ok : forall (A : Type) (a : A), only_index (Ok a).
Proof. discriminate. Qed.
Lemma only_idx : forall (A : Type) (l : list A) i, only_index (idx l i).
Proof. intros A l i x H. unfold idx in H. destruct (nth_error l i); [discriminate|]. now injection H as <-. Qed.
Lemma only_bind : forall (A B : Type) (r : res A) (f : A -> res B), only_index r -> (forall a, only_index (f a)) -> only_index (a <- r ;; f a).
Proof. intros A B [a|y] f R F x H; cbn [bind] in H; [now apply (F a)|]. injection H as <-. now apply R. Qed.
Lemma only_map : forall (A B : Type) (f : A -> res B) l, (forall a, only_index (f a)) -> only_index (map_res f l).
Proof.
  intros A B f l F. induction l as [|a l IH]; [apply only_ok|]. cbn [map_res].
  apply only_bind; [apply F|]. intro b. apply only_bind; [exact IH|]. intro bs. apply only_ok.
Qed.
Lemma only_fold : forall (A B : Type) (f : A -> B -> res A) l a, (forall a b, only_index (f a b)) -> only_index (fold_res f l a).
Proof. intros A B f l a F. revert a. induction l as [|b l IH]; intro a; [apply only_ok|]. cbn [fold_res]. apply only_bind; [apply F|exact IH]. Qed.
Lemma set_data_only : forall d common p, only_index (setData d common p).
Proof.
  intros d common p. unfold setData. apply only_bind.
  - apply only_fold. intros [[[la un] off] fi] [x|]; cbn [heading_step]; [|apply only_ok]. apply only_fold. intros [[[la' un'] off'] fi'] i.
    destruct (keep_column x p i); [|apply only_ok]. apply only_bind; [apply only_idx|]. intro. apply only_bind; [apply only_idx|]. intro. apply only_ok.
  - intros [[[la un] off] fi]. apply only_bind; [destruct (0 <? d_numrows d)%Z; [apply only_idx|apply only_ok]|]. intro o.
    apply only_bind; [apply only_map; intro i; apply only_bind; [apply only_idx|]; intro cells; unfold data_row; apply only_bind; [|intro; apply only_ok];
      apply only_map; intro q; apply only_bind; [apply only_idx|]; intro; apply only_ok|]. intro rows.
    apply only_bind; [|intro; apply only_ok]. apply only_fold. intros r cs. unfold add_common. destruct cs as [[id cs]|]; [|apply only_ok].
    apply only_map. intros [i row]. cbv zeta. match goal with |- context [if ?b then _ else _] => destruct b end; [|apply only_ok].
    apply only_bind; [apply only_idx|]. intro off'. unfold write_common. apply only_fold. intros row' icol.
    apply only_bind; [apply only_idx|]. intro. apply only_bind; [apply only_idx|]. intro. unfold set_nth.
    match goal with |- context [if ?b then _ else _] => destruct b end; [apply only_ok|]. intros x H. now injection H as <-.
Qed.

Context (nm : names) (NC : has_names (c_compounds c) (nm_compounds nm)) (FQ : rows_filled (nm_quantities nm)) (FM : rows_filled (nm_modifiers nm)).

Lemma settle_recorded : forall m line y, fair c m -> settle_quantity nm (m_quantity m) (Some (m, line)) = Raise y -> y = NotImplementedError.
Proof.
  intros m line y F H. unfold settle_quantity in H. destruct m as [rx|l|l]; [discriminate H| |]; cbn [fair] in F;
    cbn [m_quantity] in H; change (str_eqb (lit "Coupled") (lit "Coupled")) with true in H; cbv iota in H;
    destruct (shown_str c (nm_compounds nm) _ _ l NC FQ FM F) as (t & T);
    (destruct (unique (list_same tree_same) (map r_quant (getReactionList l))) as [|q [|q' qs]]; [| discriminate H |]);
      unfold m_str, measurement_str in H; rewrite T in H; cbn [bind] in H; now injection H as <-.
Qed.
Lemma factory_recorded : forall m line meta common mon data p x, fair c m ->
  X4DataSetFactory nm (m_quantity m) meta common (Some (m, line)) mon data p = Raise x -> recorded x.
Proof.
  intros m line meta common mon data p x F E. unfold X4DataSetFactory in E.
  destruct (settle_quantity nm (m_quantity m) (Some (m, line))) as [q|y] eqn:S; cbn [bind] in E.
  - right. unfold make_dataset in E. revert E. apply only_bind; [apply set_data_only|]. intro. apply only_ok.
  - left. injection E as <-. exact (settle_recorded m line y F S).
Qed.

Lemma reactions_fair : forall s p r, sound_sub c s -> dget Ascii.eqb p (reactions_of s) = Some r -> fair c (fst r).
Proof.
  intros s p r (_ & S) G. unfold reactions_of, bib_of in G. unfold sub_section in S.
  change (list_ascii_of_string "BIB") with (lit "BIB") in G.
  destruct (dget str_eqb (lit "BIB") (s_dict s)) as [[b|]|]; [|discriminate|discriminate].
  destruct (S _ eq_refl) as (b' & Eb & B). assert (b' = b) by congruence. subst b'.
  destruct (bib_field b "REACTION") as [[f|]|] eqn:BF; [|discriminate|discriminate]. destruct f; try discriminate.
  destruct (B (lit "REACTION") _ BF) as (f' & Ef & SF). injection Ef as <-. cbn [sound_field] in SF. destruct SF as [_ SF].
  apply (StrLemmas.dget_In _ Ascii.eqb_eq) in G. rewrite Forall_forall in SF. exact (SF _ G).
Qed.

Lemma data_sets_total : forall acc raw errs, well_entry c acc raw ->
  exists n ds errs' n', X4Entry e raw = Ok n /\ n_accnum n = acc /\ getDataSets nm n errs = Ok (ds, errs', n').
Proof.
  intros acc raw errs W. destruct (entry_total acc raw W) as (n & s1 & b1 & E & A & G & B & S).
  assert (I1 : In (Some (n_accnum n ++ lit "001"), s1) (n_subs n)) by (rewrite A; exact (StrLemmas.dget_In _ tag_eqb_eq _ _ _ G)).
  destruct (dataSets_total e raw nm n errs s1 E I1) as (ds & errs' & n' & R).
  - intros sub s p x I T.
    assert (X : forall from, sound_sub c from -> tried nm n s1 s from p = Some (Raise x) -> recorded x).
    { intros from SF H. unfold tried in H. destruct (sub_data s "DATA"); [|discriminate].
      destruct (dget Ascii.eqb p (reactions_of from)) as [[m line]|] eqn:Q; [|discriminate].
      apply (reactions_fair _ _ _ SF) in Q. cbn [fst] in *. injection H as H. now apply factory_recorded in H. }
    destruct T as [T|T]; [apply (X s1 (S _ _ I1) T)|apply (X s (S _ _ I) T)].
  - unfold deleted. rewrite getitem_one, A, G. cbn [of_option bind].
    unfold Entry.sub_bib. unfold bib_of in B. change (list_ascii_of_string "BIB") with (lit "BIB") in B.
    pose proof (proj2 (S _ _ I1)) as S1. unfold sub_section in S1.
    destruct (dget str_eqb (lit "BIB") (s_dict s1)) as [[b|]|]; [|discriminate|discriminate]. cbn [bind].
    destruct (S1 _ eq_refl) as (b' & Eb & SB). assert (b' = b) by congruence. subst b'.
    destruct (bib_field b "HISTORY") as [y|] eqn:H; [|reflexivity]. destruct (SB (lit "HISTORY") y H) as (f & -> & _). reflexivity.
  - intros sub s I. apply information_total. now apply (S sub).
  - exists n, ds, errs', n'. auto.
Qed.
End Entries.
