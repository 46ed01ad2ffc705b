(** Data sets of any pointer and kind are what is written. *)
From Coq Require Import String List Ascii NArith ZArith Bool Arith Lia.
From Coq Require Import Floats.SpecFloat.
From Verif.Model Require Import Py PyFloat Utilities Dicts Particle Reaction Field Section Entry Columns Dataset Pyparsing Grammars.
From Verif.Spec Require Readings.
From Verif.Spec Require Import Text Exfor Tables DataSets Merging Codes General Balance Known GeneralKnown IsomerMath Document WellWritten Pointed.
From Verif.Proofs Require Import StrLemmas NumLemmas IntLemmas ReactionLemmas DictLemmas FieldLemmas BibLemmas DataLemmas EntryLemmas UnitLemmas MergeLemmas DatasetLemmas CrossLemmas EntryDataLemmas TextTableLemmas DocumentLemmas GeneralLemmas IsomerLemmas SimplifyLemmas ReadingLemmas WellLemmas WellSimple.
Import ListNotations.
Local Open Scope string_scope.
Local Open Scope list_scope.
Local Open Scope nat_scope.

(** ** Tables *)

Lemma header_nodup : forall c ks l u p l' u' p', fold_res (header_step c) ks (l, u, p) = Ok (l', u', p') -> NoDup (dkeys p) -> NoDup (dkeys p').
Proof.
  intros c ks. induction ks as [|k ks IH]; intros l u p l' u' p' E N; [injection E as <- <- <-; exact N|].
  cbn [fold_res] in E. apply bind_ok in E. destruct E as ([[l1 u1] p1] & E1 & E2). apply (IH _ _ _ _ _ _ E2).
  unfold header_step in E1. apply bind_ok in E1. destruct E1 as (r0 & _ & E1). apply bind_ok in E1. destruct E1 as (r1 & _ & E1).
  destruct (length (cell r0 k) =? 11); injection E1 as <- <- <-; [|exact N]. apply NoDup_dset; [exact Ascii.eqb_eq|exact N].
Qed.

Lemma heading_length : forall h t, heading_cell h t -> forall p, heading_pointer t p <-> ph_pointer h = Some p.
Proof.
  intros [l q u] t H p. unfold heading_cell in H. cbn [ph_pointer ph_label] in *. unfold heading_pointer. destruct q as [q|].
  - destruct H as (_ & k & L & ->). assert (LL : length (tx l ++ repeat " "%char k) = 10) by (rewrite app_length, repeat_length; change (tx l) with (lit l); rewrite string_len; exact L).
    rewrite app_assoc. split.
    + intros [_ N]. rewrite nth_error_app2, LL in N by lia. cbn in N. congruence.
    + intros E. injection E as ->. split; [rewrite app_length, LL; reflexivity|]. rewrite nth_error_app2, LL by lia. reflexivity.
  - destruct H as (L & ->). change (tx l) with (lit l). rewrite string_len. split; [intros [E _]; lia|discriminate].
Qed.
Lemma heading_same : forall h h' t, heading_cell h t -> heading_cell h' t -> ph_pointer h <> None -> ph_label h = ph_label h' /\ ph_pointer h = ph_pointer h'.
Proof.
  intros h h' t H H' N. assert (P : ph_pointer h = ph_pointer h').
  { destruct (ph_pointer h) as [p|] eqn:E; [|congruence]. apply (heading_length h t H) in E. apply (heading_length h' t H') in E. congruence. }
  split; [|exact P]. unfold heading_cell in H, H'. rewrite <- P in H'. destruct (ph_pointer h) as [p|]; [|congruence].
  destruct H as (T & k & L & E). destruct H' as (T' & k' & L' & E'). rewrite E in E'. rewrite !app_assoc in E'. apply app_inj_tail in E'. destruct E' as [E' _].
  assert (X : forall l k, trimmed (tx l) (tx l) -> strip (tx l ++ repeat " "%char k) = tx l).
  { intros l0 k0 T0. change (tx l0 ++ repeat " "%char k0) with ([] ++ tx l0 ++ repeat " "%char k0). rewrite strip_surround; [apply strip_iff; exact T0|constructor|exact (blank_repeat_sp _)]. }
  pose proof (f_equal strip E') as F. rewrite !X in F by assumption. apply (f_equal string_of_list_ascii) in F. unfold tx in F.
  now rewrite !string_of_list_ascii_of_string in F.
Qed.
Lemma heading_short : forall h t, heading_cell h t -> strip t = t -> shortened t (lit (ph_label h)).
Proof.
  intros h t H S. unfold shortened. unfold heading_cell in H. destruct (ph_pointer h) as [p|].
  - destruct H as (T & k & L & ->). assert (LL : length (tx (ph_label h) ++ repeat " "%char k) = 10) by (rewrite app_length, repeat_length; change (tx (ph_label h)) with (lit (ph_label h)); rewrite string_len; exact L).
    rewrite app_assoc, firstn_app, LL. rewrite Nat.sub_diag. change (firstn 0 [p]) with (@nil ascii). rewrite app_nil_r, firstn_all2 by lia.
    apply strip_iff. change (tx (ph_label h) ++ repeat " "%char k) with ([] ++ tx (ph_label h) ++ repeat " "%char k). rewrite strip_surround; [apply strip_iff; exact T|constructor|exact (blank_repeat_sp _)].
  - destruct H as (L & ->). change (tx (ph_label h)) with (lit (ph_label h)) in *. rewrite firstn_all2 by (rewrite string_len; exact L). now apply strip_iff.
Qed.

Lemma pointed_read : forall tag lines d heads rows, X4DataSection tag lines = Ok d -> pointed_table lines heads rows ->
  d_numcols d = Z.of_nat (length heads) /\ d_numrows d = Z.of_nat (length rows) /\
  Forall2 (fun h t => heading_cell h t /\ strip t = t) heads (d_labels d) /\ 
  Forall2 (fun h t => t = lit (ph_unit h) /\ shortened t t) heads (d_units d) /\
  d_data d = rows /\
  forall p j, own_column d (Some p) j <-> match nth_error heads j with Some h => belongs p h = true | None => True end.
Proof.
  intros tag lines d heads rows E (NE & C & (l0 & rest & w0 & w1 & w2 & ws & -> & W & N1 & m & N2 & IM) & LL & HH & DI & LR & HR).
  destruct (data_shape _ _ _ E) as ((l0' & rest' & v0 & v1 & v2 & vs & n0 & EL & W' & I1 & I2) & LA & LU & LD & RL & _).
  injection EL as <- <-. pose proof (words_unique _ _ _ W W') as X. injection X as <- <- <- <-.
  rewrite (number_int _ _ N1) in I1. injection I1 as NC. symmetry in NC.
  assert (P : 0 < length heads) by (destruct heads; [congruence|cbn; lia]).
  pose proof (data_counted _ _ _ _ _ _ _ _ _ _ _ _ E NC P eq_refl W (number_int _ _ N2) LL IM) as NR.
  assert (DL := data_layout _ _ _ _ E NC C). cbv zeta in DL.
  rewrite NC, Nat2Z.id in LA, LU, RL. rewrite NR, Nat2Z.id in LD.
  assert (F2 : forall (A B : Type) (R : A -> B -> Prop) l l', length l' = length l ->
            (forall j x y, nth_error l j = Some x -> nth_error l' j = Some y -> R x y) -> Forall2 R l l').
  { clear. intros A B R l. induction l as [|x l IH]; intros [|y l'] L H; try discriminate; constructor.
    - apply (H 0); reflexivity.
    - apply IH; [now injection L|]. intros j a b Ha Hb. apply (H (S j)); assumption. }
  assert (Q1 : Forall2 (fun h t => heading_cell h t /\ strip t = t) heads (d_labels d)).
  { apply F2; [exact LA|]. intros j h y N Ny.
    destruct (DL j (nth_error_lt _ _ _ _ N)) as ((t & G & T) & _). apply getitem_label in G. rewrite G in Ny. injection Ny as <-.
    destruct (HH _ _ N) as (t' & H & T' & _). rewrite (cell_unique _ _ _ _ _ T T'). split; [exact H|exact (cell_trimmed _ _ _ _ T')]. }
  assert (Q2 : Forall2 (fun h t => t = lit (ph_unit h) /\ shortened t t) heads (d_units d)).
  { apply F2; [exact LU|]. intros j h y N Ny.
    destruct (DL j (nth_error_lt _ _ _ _ N)) as (_ & (t & G & T) & _). apply getitem_unit in G. rewrite G in Ny. injection Ny as <-.
    destruct (HH _ _ N) as (_ & _ & _ & L & T'). rewrite (cell_unique _ _ _ _ _ T T'). split; [reflexivity|].
    unfold shortened. change (tx (ph_unit h)) with (lit (ph_unit h)) in *. rewrite firstn_all2 by (rewrite string_len; exact L). apply strip_iff. exact (cell_trimmed _ _ _ _ T'). }
  assert (Q3 : d_data d = rows).
  { apply same_length_nth; [exact LD|]. intros i row Ni. destruct (nth_error_ex _ (d_data d) i) as [row' Nr]; [rewrite LD; now apply nth_error_lt in Ni|].
    rewrite Nr. f_equal. rewrite Forall_forall in LR. pose proof (LR _ (nth_error_In _ _ Ni)) as Lr.
    apply same_length_nth; [rewrite (RL _ (nth_error_In _ _ Nr)); congruence|]. intros j x Nj.
    assert (J : j < length heads) by (rewrite <- Lr; now apply nth_error_lt in Nj).
    destruct (DL j J) as (_ & _ & G). destruct (G i) as (t & v & T & Pv & Gv); [rewrite NR, Nat2Z.id; now apply nth_error_lt in Ni|].
    apply getitem_number in Gv. destruct Gv as (row2 & N2r & Nv). rewrite Nr in N2r. injection N2r as <-.
    destruct (HR _ _ _ _ Ni Nj) as (t' & T' & Nt). rewrite (cell_unique _ _ _ _ _ T T') in Pv. rewrite (number_parsed _ _ Nt) in Pv. congruence. }
  split; [exact NC|]. split; [exact NR|]. split; [exact Q1|]. split; [exact Q2|]. split; [exact Q3|].
  assert (AT : forall j l, nth_error (d_labels d) j = Some l -> exists h, nth_error heads j = Some h /\ heading_cell h l).
  { clear - Q1. induction Q1 as [|h t hs ts [H _] _ IH]; intros [|j] l N; try discriminate N; cbn [nth_error] in *.
    - injection N as <-. eauto.
    - now apply IH. }
  assert (AT' : forall j h, nth_error heads j = Some h -> exists l, nth_error (d_labels d) j = Some l /\ heading_cell h l).
  { clear - Q1. induction Q1 as [|h t hs ts [H _] _ IH]; intros [|j] l N; try discriminate N; cbn [nth_error] in *.
    - injection N as <-. eauto.
    - now apply IH. }
  assert (U : forall i j l p, nth_error (d_labels d) i = Some l -> nth_error (d_labels d) j = Some l -> heading_pointer l p -> i = j).
  { intros i j l p Ni Nj HP. destruct (AT _ _ Ni) as (h & Nh & Ch). destruct (AT _ _ Nj) as (h' & Nh' & Ch').
    apply (heading_length h l Ch) in HP. destruct (heading_same h h' l Ch Ch') as [SL SP]; [congruence|]. apply (DI i j h h' Nh Nh'); congruence. }
  pose proof (data_pointers _ _ _ E U) as DP.
  assert (ND : NoDup (dkeys (d_pointers d))).
  { apply data_ok in E. clear W W' N1 N2. destruct E as (? & ? & ? & ? & c & ? & _ & _ & _ & _ & _ & _ & _ & _ & _ & HF & _). apply (header_nodup _ _ _ _ _ _ _ _ HF). constructor. }
  intros p j. unfold own_column. split.
  - intro H. destruct (nth_error heads j) as [h|] eqn:Nh; [|exact I]. unfold belongs. destruct (ph_pointer h) as [q|] eqn:Q; [|reflexivity].
    destruct (Ascii.eqb q p) eqn:B; [reflexivity|]. exfalso. apply Ascii.eqb_neq in B. destruct (AT' _ _ Nh) as (l & Nl & Ch).
    assert (HP : heading_pointer l q) by (now apply (heading_length h l Ch)).
    destruct (dget Ascii.eqb q (d_pointers d)) as [cols|] eqn:G.
    + pose proof G as G'. apply DP in G'. destruct G' as (_ & _ & M). apply (H q cols).
      * exact (dget_In _ Ascii.eqb_eq _ _ _ G).
      * congruence.
      * apply M. eauto.
    + destruct (data_ok _ _ _ E) as (? & ? & ? & ? & c & ? & _ & _ & _ & _ & _ & _ & _ & _ & _ & HF & _).
      apply header_fold in HF. destruct HF as [(Z & _)|(r0 & r1 & _ & _ & EL & _ & PP)]; [rewrite NC, Nat2Z.id in Z; lia|].
      rewrite PP in G. match type of G with match map ?f (filter ?g ?s) with _ => _ end = _ => assert (J : In j (filter g s)) end.
      { rewrite NC, Nat2Z.id in *. apply filter_In. split; [apply in_seq; apply nth_error_lt in Nh; lia|].
        rewrite EL, (nth_error_map_seq _ (cell r0) (length heads) j) in Nl by now apply nth_error_lt in Nh. injection Nl as <-.
        destruct HP as [L11 N10]. rewrite L11. cbn. apply Ascii.eqb_eq. symmetry. now apply nth_error_nth. }
      destruct (filter _ _); [destruct J|discriminate G].
  - intros H q cols I Nq J. apply (In_dget _ Ascii.eqb_eq _ _ _ ND) in I. apply DP in I. destruct I as (_ & _ & M). apply M in J.
    destruct J as (l & Nl & HP). destruct (AT _ _ Nl) as (h & Nh & Ch). rewrite Nh in H. apply (heading_length h l Ch) in HP.
    unfold belongs in H. rewrite HP in H. apply Ascii.eqb_eq in H. congruence.
Qed.

Definition keeps (p : ascii) (heads : list phead) (j : nat) : bool := match nth_error heads j with Some h => belongs p h | None => true end.

Lemma select_filter : forall (A : Type) (p : ascii) (all heads : list phead) (xs : list A) (pre : list phead), all = pre ++ heads -> length xs = length heads ->
  select (keeps p all) (length pre) xs = map snd (filter (fun hx => belongs p (fst hx)) (combine heads xs)).
Proof.
  intros A p all heads. induction heads as [|h heads IH]; intros [|x xs] pre E L; try discriminate L; [reflexivity|].
  cbn [select combine filter fst].
  assert (K : keeps p all (length pre) = belongs p h).
  { unfold keeps. rewrite E, nth_error_app2, Nat.sub_diag by lia. reflexivity. }
  rewrite K. replace (S (length pre)) with (length (pre ++ [h])) by (rewrite app_length; cbn; lia).
  rewrite (IH xs (pre ++ [h])) by (try (rewrite E, <- app_assoc; reflexivity); now injection L).
  destruct (belongs p h); reflexivity.
Qed.
Lemma combine_map : forall (A B : Type) (f : A -> B) (Q : A -> bool) l, map snd (filter (fun hx => Q (fst hx)) (combine l (map f l))) = map f (filter Q l).
Proof. induction l as [|x l IH]; [reflexivity|]. cbn [map combine filter fst]. destruct (Q x); cbn [map snd]; now rewrite IH. Qed.
Lemma combine_short : forall p heads ts, Forall2 (fun h t => heading_cell h t /\ strip t = t) heads ts ->
  Forall2 shortened (map snd (filter (fun hx => belongs p (fst hx)) (combine heads ts))) (map (fun h => lit (ph_label h)) (filter (belongs p) heads)).
Proof.
  intros p heads ts F. induction F as [|h t hs ts [H S] _ IH]; [constructor|]. cbn [combine filter fst]. destruct (belongs p h); [|exact IH].
  cbn [map snd]. constructor; [now apply heading_short|exact IH].
Qed.

Lemma common_pointed : forall p text heads row, common_table text heads row -> pointed_common p text heads row.
Proof.
  intros p text heads row [H|(section & H & NE & C & CO & LL & HH & LR & HR)]; [now left|right].
  exists section, (map (fun h => mkPhead (fst h) None (snd h)) heads). split; [exact H|]. split; [|split].
  - unfold pointed_table. rewrite map_length. split; [destruct heads; [congruence|discriminate]|]. split; [exact C|]. split; [exact CO|]. split; [exact LL|].
    assert (NT : forall j h, nth_error (map (fun h : heading => mkPhead (fst h) None (snd h)) heads) j = Some h -> exists l u, nth_error heads j = Some (l, u) /\ h = mkPhead l None u).
    { intros j h N. rewrite nth_error_map_eq in N. destruct (nth_error heads j) as [[l u]|]; [|discriminate]. injection N as <-. eauto. }
    split; [|split; [|split; [exact LR|exact HR]]].
    + intros j h N. destruct (NT j h N) as (l & u & N' & ->). destruct (HH j l u N') as (A & B & T & T'). exists (tx l).
      split; [split; [exact A|reflexivity]|]. split; [exact T|]. split; [exact B|exact T'].
    + intros i j h h' N _ P. destruct (NT i h N) as (l & u & _ & ->). now elim P.
  - apply Forall_map, Forall_forall. reflexivity.
  - rewrite map_map. cbn [ph_label ph_unit]. rewrite <- (map_id heads) at 1. apply map_ext. now intros [l u].
Qed.

Definition pcommon_is (p : ascii) (c : option (nat * data_section)) (heads : list heading) (row : list (option float)) : Prop :=
  match c with
  | None => heads = [] /\ row = []
  | Some (_, c) => exists tag lines hs, X4DataSection tag lines = Ok c /\ pointed_table lines hs [row] /\
      Forall (fun h => belongs p h = true) hs /\ heads = map (fun h => (ph_label h, ph_unit h)) hs
  end.
Lemma sub_pcommon : forall e text s i p h r, X4SubEntry e text = Ok s -> sections_named text -> pointed_common p text h r -> pcommon_is p (common_of i s) h r.
Proof.
  intros e text s i p h r E N [(-> & -> & X)|(b & hs & H & W & B & ->)]; unfold common_of.
  - assert (sub_data s "COMMON" = None) as -> by (unfold sub_data; now rewrite (sub_none _ _ _ _ E N X)). cbn. auto.
  - destruct (sub_table e text s "COMMON" b E N (or_intror eq_refl) H) as (x & Ex & ->). cbn. eauto 10.
Qed.

Lemma pointed_merged : forall tag lines d heads rows c1 h1 r1 c2 h2 r2 p,
  X4DataSection tag lines = Ok d -> pointed_table lines heads rows ->
  pcommon_is p c1 h1 r1 -> pcommon_is p c2 h2 r2 -> different c1 c2 ->
  setData d [c1; c2] (Some p) = Ok (pointed_set p h1 h2 r1 r2 heads rows).
Proof.
  intros tag lines d heads rows c1 h1 r1 c2 h2 r2 p E W C1 C2 Df.
  destruct (pointed_read _ _ _ _ _ E W) as (NC & NR & QL & QU & QD & QP).
  assert (CC : forall c h r, pcommon_is p c h r ->
    (forall i k, c = Some (i, k) -> section_ok k /\ all_own k (Some p)) /\
    Forall2 shortened (common_labels (option_map snd c)) (map (fun x : heading => lit (fst x)) h) /\
    Forall2 shortened (common_units (option_map snd c)) (map (fun x : heading => lit (snd x)) h) /\
    forall i, common_row (option_map snd c) i = map as_cell r).
  { intros c h r X. destruct c as [[i k]|]; cbn [pcommon_is option_map snd] in *.
    - destruct X as (tg & ls & hs & Ek & Wk & B & ->). destruct (pointed_read _ _ _ _ _ Ek Wk) as (_ & KR & KL & KU & KD & KP).
      split; [intros i' k' X; injection X as <- <-; split; [now apply parsed_section_ok in Ek|]|].
      { intros j. apply KP. destruct (nth_error hs j) as [h|] eqn:Nh; [|exact I]. apply nth_error_In in Nh. rewrite Forall_forall in B. now apply B. }
      rewrite !map_map. cbn [fst snd]. split; [|split].
      + cbn [common_labels]. clear - KL. induction KL as [|h t hs ts [H S] _ IH]; [constructor|]. constructor; [now apply heading_short|exact IH].
      + cbn [common_units]. clear - KU. induction KU as [|h t hs ts [-> S] _ IH]; [constructor|]. constructor; [exact S|exact IH].
      + intros i'. cbn [common_row]. rewrite KR, KD. reflexivity.
    - destruct X as [-> ->]. split; [discriminate|]. split; [constructor|]. split; [constructor|reflexivity]. }
  destruct (CC _ _ _ C1) as (O1 & L1 & U1 & R1). destruct (CC _ _ _ C2) as (O2 & L2 & U2 & R2).
  destruct (set_data d c1 c2 (Some p) (keeps p heads)) as (t & us & Es & FL & EU & FU & LD & ND); auto.
  - now apply parsed_section_ok in E.
  - intros j. rewrite QP. unfold keeps. destruct (nth_error heads j); tauto.
  - assert (SEL : forall (A : Type) (xs : list A), length xs = length heads -> select (keeps p heads) 0 xs = map snd (filter (fun hx => belongs p (fst hx)) (combine heads xs))).
    { intros A xs L. exact (select_filter A p heads heads xs [] eq_refl L). }
    assert (LL : length (d_labels d) = length heads) by (symmetry; exact (Forall2_len _ _ _ _ _ QL)).
    assert (LU : length (d_units d) = length heads) by (symmetry; exact (Forall2_len _ _ _ _ _ QU)).
    assert (DU : d_units d = map (fun h => lit (ph_unit h)) heads).
    { clear - QU. induction QU as [|h t hs ts [-> _] _ IH]; [reflexivity|]. cbn [map]. now rewrite IH. }
    assert (SU : forall h, In h heads -> shortened (lit (ph_unit h)) (lit (ph_unit h))).
    { clear - QU. induction QU as [|h t hs ts [-> S] _ IH]; intros x I; [destruct I|]. destruct I as [<-|I]; [exact S|now apply IH]. }
    rewrite SEL in FL by exact LL. rewrite SEL, DU, combine_map in FU by exact LU.
    rewrite Es. f_equal. destruct t as [tl tu td]. cbn [t_labels t_units t_data] in *. unfold pointed_set, merged_table. f_equal.
    + apply (Forall2_shortened_unique _ _ _ FL). rewrite !map_app. apply Forall2_app; [exact L1|].
      apply Forall2_app; [exact L2|]. unfold own_heads. rewrite map_map. cbn [fst]. now apply combine_short.
    + rewrite EU. rewrite <- (map_map (fun h : heading => lit (snd h)) Some). f_equal. apply (Forall2_shortened_unique _ _ _ FU).
      rewrite !map_app. apply Forall2_app; [exact U1|]. apply Forall2_app; [exact U2|].
      unfold own_heads. rewrite map_map. cbn [snd]. clear - SU. 
      induction heads as [|h hs IH]; [constructor|]. cbn [filter]. destruct (belongs p h); cbn [map]; [constructor; [apply SU; now left|]|]; apply IH; intros x I; apply SU; now right.
    + rewrite QD in LD, ND. rewrite map_map. apply same_length_nth; [now rewrite map_length|]. intros i x N. rewrite nth_error_map_eq in N.
      destruct (nth_error rows i) as [row|] eqn:Nr; [|discriminate]. injection N as <-. rewrite (ND i row Nr), R1, R2, !map_app. unfold own_cells. rewrite SEL; [reflexivity|].
      destruct W as (_ & _ & _ & _ & _ & _ & LR & _). rewrite Forall_forall in LR. apply LR. now apply nth_error_In in Nr.
Qed.

(** ** Reactions *)

Lemma lines_unique : forall fld p ls texts, pointer_lines fld p ls -> Forall2 right_trimmed (map (columns 11 66) fld) texts -> ls = marked p (marks " " fld) texts.
Proof.
  intros fld p ls texts (texts' & T' & -> & _) T. f_equal. revert texts T T'. generalize (map (columns 11 66) fld). intros l texts T. revert texts'.
  induction T as [|x y l texts R _ IH]; intros texts' T'; inversion T' as [|? y' ? ? R' T'']; subst; [reflexivity|].
  f_equal; [apply right_trimmed_unique in R, R'; congruence|now apply IH].
Qed.
Lemma subfield_is : forall ls text, pointer_text ls text -> ls <> [] -> subfield_str ls = text.
Proof.
  intros ls text (parts & F & ->) N. unfold subfield_str.
  assert (map strip ls = parts) as ->. { clear N. induction F as [|l p ls ps T _ IH]; [reflexivity|]. cbn [map]. f_equal; [now apply strip_iff|exact IH]. }
  symmetry. apply blank_join. intros ->. inversion F; subst. congruence.
Qed.

Lemma bib_reaction : forall e bib b fs fld, X4BibSection e bib = Ok b -> fields bib fs -> last_such (field_keyword (tx "REACTION")) fs fld ->
  exists pf rs, bib_field b "REACTION" = Some (Some (FReaction pf rs)) /\ X4PlainField fld = Ok pf /\
    map_res (fun pl => r <- reaction_of_text e (subfield_str (snd pl)) ;; Ok (fst pl, r)) (f_dict pf) = Ok rs.
Proof.
  intros e bib b fs fld E (first & rest & -> & O & KF & Om) La.
  pose proof (bib_chunkify_fields _ _ _ O KF Om) as CH. rewrite bib_section_fold, CH in E.
  destruct (fold_bib_spec _ _ _ _ E) as (_ & FM & G & _).
  assert (I : In fld (first :: rest)) by (destruct La as (a & z & -> & _); apply in_or_app; right; now left).
  rewrite Forall_forall in FM. destruct (FM fld I) as (kw & f & K & M).
  assert (kw = tx "REACTION") as -> by (destruct La as (a & z & _ & K' & _); exact (field_keyword_fun _ _ _ K K')).
  assert (GF : bib_field b "REACTION" = Some (Some f)) by (apply (G (tx "REACTION")); left; exists fld, f; auto).
  change (key_of (tx "REACTION")) with (Some (lit "REACTION")) in M. unfold make_field in M. cbv zeta in M.
  change (tag_eqb (Some (lit "REACTION")) (Some (lit "REACTION"))) with true in M. cbv iota in M.
  apply bind_ok in M. destruct M as ([pf rs] & X & M). injection M as <-. cbn [fst snd] in GF.
  unfold X4ReactionField in X. apply bind_ok in X. destruct X as (pf' & PF & X). apply bind_ok in X. destruct X as (rs' & MR & X).
  injection X as -> ->. exists pf, rs. auto.
Qed.

Lemma map_res_dget_none : forall (A B : Type) (f : A -> res B) d rs p, map_res (fun pl : ascii * A => r <- f (snd pl) ;; Ok (fst pl, r)) d = Ok rs ->
  dget Ascii.eqb p d = None -> dget Ascii.eqb p rs = None.
Proof.
  intros A B f. induction d as [|[q z] d IH]; intros rs p E G; [injection E as <-; reflexivity|]. cbn [map_res fst snd] in E.
  apply bind_ok in E. destruct E as (y & Ey & E). apply bind_ok in Ey. destruct Ey as (r & Er & Ey). injection Ey as <-.
  apply bind_ok in E. destruct E as (ys & Eys & E). injection E as <-. cbn [dget] in *. destruct (Ascii.eqb p q); [discriminate|]. now apply (IH ys).
Qed.

Lemma stated_read : forall e text s p code, X4SubEntry e text = Ok s -> sections_named text -> stated text p code ->
  exists r, reaction_of_text e code = Ok r /\ dget Ascii.eqb p (reactions_of s) = Some r.
Proof.
  intros e text s p code S N (bib & fs & fld & ls & HB & F & La & PL & PT).
  destruct (sub_bib _ _ _ _ S N HB) as (b & Eb & B). destruct (bib_reaction e bib b fs fld Eb F La) as (pf & rs & BF & PF & MR).
  destruct (plain_field_spec _ _ PF) as (_ & (texts & T & D) & _). pose proof (lines_unique _ _ _ _ PL T) as EL.
  assert (NE : ls <> []) by (destruct PL as (_ & _ & _ & X); exact X).
  specialize (D p). rewrite <- EL in D. assert (D' : dget Ascii.eqb p (f_dict pf) = Some ls) by (rewrite D; destruct ls; congruence).
  destruct (map_res_dget _ _ (fun l => reaction_of_text e (subfield_str l)) _ _ _ _ MR D') as (y & Y & GY).
  rewrite (subfield_is _ _ PT NE) in Y. exists y. split; [exact Y|]. unfold reactions_of. rewrite B, BF. exact GY.
Qed.
Lemma unstated_read : forall e text s p, X4SubEntry e text = Ok s -> sections_named text -> unstated text p -> dget Ascii.eqb p (reactions_of s) = None.
Proof.
  intros e text s p S N [NB|(bib & fs & HB & F & H)]; unfold reactions_of.
  - assert (bib_of s = None) as ->; [|reflexivity]. pose proof (sub_none _ _ _ _ S N NB) as X. unfold sub_section in X. unfold bib_of. unfold lit in X. now rewrite X.
  - destruct (sub_bib _ _ _ _ S N HB) as (b & Eb & B). rewrite B. destruct H as [H|(fld & La & H)].
    + assert (bib_field b "REACTION" = None) as ->; [|reflexivity].
      destruct F as (first & rest & -> & O & KF & Om). pose proof (bib_chunkify_fields _ _ _ O KF Om) as CH. rewrite bib_section_fold, CH in Eb.
      destruct (fold_bib_spec _ _ _ _ Eb) as (_ & _ & G & _). unfold bib_field. destruct (dget tag_eqb (Some (lit "REACTION")) (b_dict b)) as [x|] eqn:Q; [exfalso|reflexivity].
      apply (G (tx "REACTION")) in Q. destruct Q as [(fld & f & La & _)|[_ Q]]; [|discriminate Q].
      destruct La as (a & z & E & K & _). rewrite E in H. rewrite Forall_forall in H. apply (H fld); [apply in_or_app; right; now left|exact K].
    + destruct (bib_reaction e bib b fs fld Eb F La) as (pf & rs & BF & PF & MR). rewrite BF.
      apply (map_res_dget_none _ _ (fun l => reaction_of_text e (subfield_str l)) _ _ _ MR).
      destruct (plain_field_spec _ _ PF) as (_ & (texts & T & D) & _). rewrite D.
      destruct (marked p (marks " " fld) texts) as [|l0 l] eqn:M; [reflexivity|]. exfalso. apply (H (l0 :: l)). exists texts. split; [exact T|]. split; [now rewrite M|discriminate].
Qed.

(** ** Quantities *)

Lemma list_same_toks : forall q, list_same tree_same (map PTok q) (map PTok q) = true.
Proof. induction q as [|w q IH]; [reflexivity|]. cbn [map list_same tree_same]. now rewrite str_eqb_refl, IH. Qed.
Lemma unique_uniform : forall q rs, rs <> [] -> Forall (fun r => r_quant r = map PTok q) rs -> unique (list_same tree_same) (map r_quant rs) = [map PTok q].
Proof.
  intros q rs N F. unfold unique.
  assert (G : forall rs, Forall (fun r => r_quant r = map PTok q) rs ->
    fold_left (fun newl x => if existsb (list_same tree_same x) newl then newl else newl ++ [x]) (map r_quant rs) [map PTok q] = [map PTok q]).
  { clear. induction rs as [|r rs IH]; intro F; [reflexivity|]. inversion F as [|? ? E F']; subst. cbn [map fold_left existsb]. rewrite E, list_same_toks. cbn [orb]. now apply IH. }
  destruct F as [|r rs E F]; [congruence|]. cbn [map fold_left existsb app]. rewrite E. now apply G.
Qed.
Lemma settle_uniform : forall nm data m l q, m = MComb data \/ m = MIso data -> getReactionList data <> [] ->
  Forall (fun r => r_quant r = map PTok q) (getReactionList data) -> settle_quantity nm (m_quantity m) (Some (m, l)) = Ok (PGroup (map PTok q)).
Proof.
  intros nm data m l q M N F. unfold settle_quantity. destruct M as [-> | ->]; cbn [m_quantity]; change (str_eqb (lit "Coupled") (lit "Coupled")) with true; cbv iota;
    now rewrite (unique_uniform q _ N F).
Qed.
Lemma reactions_wrapped : forall data, getReactionList (EOp (tx "(") :: data ++ [EOp (tx ")")]) = flat_map element_reactions data.
Proof. intro data. unfold getReactionList. cbn [flat_map element_reactions app]. rewrite flat_map_app. cbn [flat_map element_reactions app]. apply app_nil_r. Qed.
Lemma said_quantity : forall piece x q, gsaying (PGroup piece) x -> tl piece = map PTok q ->
  exists rx, element_reactions x = [rx] /\ r_quant rx = map PTok q.
Proof.
  intros piece x q (r & rx & T & J & pss & rs & -> & -> & S & _) E. exists rx. split; [reflexivity|]. rewrite (gsays_quantities _ _ _ _ S).
  unfold general_tree in E. cbn [tl] in E. exact E.
Qed.
Lemma said_all : forall q l data, Forall2 gsaying l data -> (forall piece, In (PGroup piece) l -> tl piece = map PTok q) ->
  Forall (fun r => r_quant r = map PTok q) (flat_map element_reactions data) /\
  ((exists piece, In (PGroup piece) l) -> flat_map element_reactions data <> []).
Proof.
  intros q l data F. induction F as [|y x l data H _ IH]; intro Q; [split; [constructor|intros (? & [])]|].
  destruct IH as [IH1 IH2]; [intros piece I; apply Q; now right|]. cbn [flat_map].
  destruct y as [op|piece].
  - cbn [gsaying] in H. subst x. cbn [element_reactions app]. split; [exact IH1|]. intros (piece & [I|I]); [discriminate I|]. apply IH2. eauto.
  - destruct (said_quantity piece x q H (Q piece (or_introl eq_refl))) as (rx & -> & E). cbn [app]. split; [now constructor|discriminate].
Qed.
Lemma apart_quantity : forall r n w piece, In (PGroup piece) (states_apart r n w) -> tl piece = map PTok [w].
Proof.
  intros r n w piece I. unfold states_apart in I. destruct (n_iso n) as [|i l]; [destruct I|].
  assert (Q : forall i, tl (general_tree (single r n w i)) = map PTok [w]) by reflexivity.
  destruct I as [I|I]; [injection I as <-; apply Q|]. apply in_flat_map in I. destruct I as (j & _ & [I|[I|[]]]); [discriminate I|]. injection I as <-. apply Q.
Qed.
Lemma apart_some : forall r n w, state_math r n w -> exists piece, In (PGroup piece) (states_apart r n w).
Proof.
  intros r n w S. destruct (sm_states _ _ _ S) as (a & b & i & j & _ & N & _). unfold states_apart. destruct (n_iso n) as [|x l]; [destruct a; discriminate N|].
  eexists. left. reflexivity.
Qed.
Lemma states_all : forall w l data, Forall2 saying_states l data -> (forall piece, In (PGroup piece) l -> tl piece = map PTok [w]) ->
  Forall (fun r => r_quant r = map PTok [w]) (flat_map element_reactions data) /\
  ((exists piece, In (PGroup piece) l) -> flat_map element_reactions data <> []).
Proof.
  intros w l data F. induction F as [|y x l data H _ IH]; intro Q; [split; [constructor|intros (? & [])]|].
  destruct IH as [IH1 IH2]; [intros piece I; apply Q; now right|]. cbn [flat_map]. destruct H as [H|(r & n & q & d & -> & SM & -> & F2)].
  - destruct y as [op|piece].
    + cbn [gsaying] in H. subst x. cbn [element_reactions app]. split; [exact IH1|]. intros (piece & [I|I]); [discriminate I|]. apply IH2. eauto.
    + destruct (said_quantity piece x [w] H (Q piece (or_introl eq_refl))) as (rx & -> & E). cbn [app]. split; [now constructor|discriminate].
  - assert (q = w) as ->.
    { destruct (sm_quantity _ _ _ SM) as (more & E). specialize (Q _ (or_introl eq_refl)). unfold general_tree in Q. cbn [tl] in Q. rewrite E in Q. cbn [map] in Q. congruence. }
    change (element_reactions (EIso (EOp (tx "(") :: d ++ [EOp (tx ")")]))) with (getReactionList (EOp (tx "(") :: d ++ [EOp (tx ")")])). rewrite reactions_wrapped.
    destruct (said_all [w] _ _ F2 (apart_quantity r n w)) as [A B]. split; [apply Forall_app; auto|].
    intros _. specialize (B (apart_some r n w SM)). destruct (flat_map element_reactions d); [congruence|discriminate].
Qed.

Section Data.
Context (c : codes) (e : env) (D : well_dictionaries c e).

Lemma code_read : forall x line text q, code_text c x line text -> code_quantity c x q ->
  exists m, reaction_of_text e text = Ok (m, PTok line) /\ code_means x m /\ (forall nm l, settle_quantity nm (m_quantity m) (Some (m, l)) = Ok (PGroup (map PTok q))) /\
    (is_combination m = false <-> exists r, x = One r).
Proof.
  destruct D as [D1 D2 D3 D4 _ _ D7]. intros x line text q CT CQ. destruct x as [r|r n w|l]; cbn [code_text code_quantity code_means] in *.
  - destruct CT as (G & K & F). destruct (general_text c D1 D2 e r line text D3 D4 G K F) as (rx & T & J & pss & rs & R & S & X).
    exists (MRxn rx). split; [exact R|]. split; [exists rx, T, J, pss, rs; auto|]. split; [|split; [eauto|reflexivity]].
    intros nm l. cbn [m_quantity settle_quantity]. rewrite (gsays_quantities _ _ _ _ S), CQ. reflexivity.
  - destruct CT as (G & SM & F). destruct (states_text c D1 D2 e r n w line text D3 D4 D7 G SM F) as (data & R & F2 & _). subst q.
    eexists. split; [exact R|]. split; [exists data; auto|]. split; [|split; [discriminate|intros (? & ?); discriminate]].
    intros nm l. destruct (said_all [w] _ _ F2 (apart_quantity r n w)) as [A B]. eapply settle_uniform; [right; reflexivity| |]; rewrite reactions_wrapped; [apply B; now apply apart_some|exact A].
  - destruct CT as (ts & CE & F & PC). destruct CQ as (SO & TQ & ALT). destruct (states_combination c D1 D2 e ts l line text D3 D4 D7 CE F PC) as (data & R & F2 & _).
    eexists. split; [exact R|]. split; [exists data; auto|]. split; [|split; [discriminate|intros (? & ?); discriminate]].
    intros nm l0. assert (AB : Forall (fun r => r_quant r = map PTok q) (flat_map element_reactions data) /\ flat_map element_reactions data <> []).
    { destruct ALT as [L1|KN].
      - destruct q as [|w [|? ?]]; try discriminate L1. destruct (states_all w l data F2 TQ) as [A B]. auto.
      - destruct (general_combination c D1 D2 e ts l line text D3 D4 CE F KN) as (data' & R' & F2' & _). rewrite R in R'.
        assert (EQ : EOp (tx "(") :: data ++ [EOp (tx ")")] = EOp (tx "(") :: data' ++ [EOp (tx ")")]) by congruence.
        apply (f_equal (@tl element)) in EQ. cbn [tl] in EQ. apply app_inj_tail in EQ. destruct EQ as [-> _].
        destruct (said_all q l data' F2' TQ) as [A B]. auto. }
    eapply settle_uniform; [left; reflexivity| |]; rewrite reactions_wrapped; apply AB.
Qed.

Variables (nm : names) (acc : list ascii) (raw : list (list ascii)) (num text text1 : list ascii) (data : list (list ascii)) (p : ascii).
Variables (code line : list ascii) (x : rxcode) (q : list (list ascii)) (k : ds_class).
Variables (h1 h2 : list heading) (r1 r2 : list (option float)) (hd : list phead) (rows : list (list (option float))).
Hypothesis NC : has_names (c_compounds c) (nm_compounds nm).
Hypothesis FQ : rows_filled (nm_quantities nm).
Hypothesis FM : rows_filled (nm_modifiers nm).
Hypothesis W : well_entry c acc raw.
Hypothesis Ht : last_such (numbered num) raw text.
Hypothesis Ht1 : last_such (numbered (acc ++ tx "001")) raw text1.
Hypothesis Hn : num <> acc ++ tx "001".
Hypothesis Hr : stated_for text text1 p code.
Hypothesis Hx : code_text c x line code.
Hypothesis Hq : code_quantity c x q.
Hypothesis Hk : kind (map PTok q) k.
Hypothesis Hc1 : pointed_common p text1 h1 r1.
Hypothesis Hc2 : pointed_common p text h2 r2.
Hypothesis Hd : has_section "DATA" text data.
Hypothesis Hw : pointed_table data hd rows.

Definition in_full (d : dataset) : Prop := exists m, ds_reaction d = Some (m, PTok line) /\ code_means x m /\ ds_class_of d = k /\
  (ds_coupled d = false <-> exists r, x = One r).

Lemma pointed_data_set : forall n errs ds errs' n', X4Entry e raw = Ok n -> n_accnum n = acc -> getDataSets nm n errs = Ok (ds, errs', n') ->
  exists d, dget key_eqb (acc, Some num, p) ds = Some d /\ in_full d /\ ds_simplified d = false /\ ds_table d = pointed_set p h1 h2 r1 r2 hd rows.
Proof.
  intros n errs ds errs' n' HE HA GD. subst acc.
  assert (Hs : forall k t, last_such (numbered k) raw t -> sections_named t).
  { intros k0 t I. apply last_in in I. destruct I as [I _]. pose proof (well_subs _ _ _ W) as F. rewrite Forall_forall in F. now apply (well_named c), F. }
  destruct (entry_last _ _ _ _ _ HE Ht) as (s & S & A & I & _).
  destruct (entry_last _ _ _ _ _ HE Ht1) as (s1 & S1 & A1 & I1 & G1).
  destruct (dataSets_values _ _ _ _ _ _ _ _ HE GD) as (s1' & I1' & V & _).
  assert (s1' = s1) as -> by exact (entry_same _ _ _ _ _ _ HE G1 I1').
  destruct (V _ s p I) as [V1 _]. clear V.
  pose proof (Hs _ _ Ht) as N0. pose proof (Hs _ _ Ht1) as N1.
  destruct (sub_table _ _ _ "DATA" _ S N0 (or_introl eq_refl) Hd) as (dd & Ed & DD).
  assert (CI : common_id n s = 1).
  { unfold common_id. rewrite A. destruct (tag_eqb (Some num) _) eqn:Q; [|reflexivity]. apply tag_eqb_eq in Q. injection Q as Q. now elim Hn. }
  pose proof (sub_pcommon e text1 s1 0 p h1 r1 S1 N1 Hc1) as K1. pose proof (sub_pcommon e text s 1 p h2 r2 S N0 Hc2) as K2.
  assert (DF : different (common_of 0 s1) (common_of 1 s)).
  { intros i y j z E1 E2. unfold common_of in E1, E2. destruct (sub_data s1 "COMMON"); [|discriminate]. destruct (sub_data s "COMMON"); [|discriminate].
    cbn in E1, E2. congruence. }
  pose proof (pointed_merged _ _ _ _ _ _ _ _ _ _ _ p Ed Hw K1 K2 DF) as TM.
  destruct (code_read x line code q Hx Hq) as (m & RT & ME & SQ & CO).
  assert (ET : forall from, dget Ascii.eqb p (reactions_of from) = Some (m, PTok line) ->
     exists d, tried nm n s1 s from p = Some (Ok d) /\ in_full d /\ ds_simplified d = false /\ ds_table d = pointed_set p h1 h2 r1 r2 hd rows).
  { intros from DR. unfold tried. rewrite DD, DR, CI. cbn [fst]. unfold X4DataSetFactory. rewrite SQ. cbn [bind]. unfold make_dataset. rewrite TM. cbn [bind].
    assert (class_of_quantity (PGroup (map PTok q)) = k) as -> by exact (kind_unique _ _ _ (kind_of_class _) Hk).
    eexists. split; [reflexivity|]. split; [|split; reflexivity]. exists m. cbn [ds_reaction ds_class_of ds_coupled]. auto. }
  destruct Hr as [SR|[NR SR]].
  - destruct (stated_read e text s p code S N0 SR) as (r & Rr & DR). assert (r = (m, PTok line)) by congruence. subst r.
    destruct (ET s DR) as (d & E & X). rewrite E in V1. cbn [ok_of last_some] in V1. exists d. auto.
  - destruct (stated_read e text1 s1 p code S1 N1 SR) as (r & Rr & DR). assert (r = (m, PTok line)) by congruence. subst r.
    destruct (ET s1 DR) as (d & E & X). rewrite E in V1. 
    assert (T0 : tried nm n s1 s s p = None).
    { unfold tried. rewrite DD, (unstated_read e text s p S N0 NR). reflexivity. }
    rewrite T0 in V1. cbn [ok_of last_some] in V1. exists d. auto.
Qed.

Lemma pointed_full : forall errs, exists n ds errs' n' d, X4Entry e raw = Ok n /\ n_accnum n = acc /\ getDataSets nm n errs = Ok (ds, errs', n') /\
  dget key_eqb (acc, Some num, p) ds = Some d /\ in_full d /\ ds_simplified d = false /\ ds_table d = pointed_set p h1 h2 r1 r2 hd rows.
Proof.
  intro errs. destruct (data_sets_total c e D nm NC FQ FM acc raw errs W) as (n & ds & errs' & n' & E & A & G).
  destruct (pointed_data_set n errs ds errs' n' E A G) as (d & X). exists n, ds, errs', n', d. auto.
Qed.

Lemma pointed_simplified : forall acos mk errs s, Forall (simple_subentry acos) raw ->
  exists n ds errs' n' s' d, X4Entry e raw = Ok n /\ n_accnum n = acc /\ getSimplifiedDataSets nm acos mk n errs s = Ok (ds, errs', n', s') /\
    dget key_eqb (acc, Some num, p) ds = Some d /\ in_full d /\
    let t := pointed_set p h1 h2 r1 r2 hd rows in
    (wanted_columns k = [] -> ds_simplified d = false /\ ds_table d = t) /\
    (wanted_columns k <> [] -> forallb (Readings.has_values acos t) (Readings.quantities k) = true ->
       ds_simplified d = true /\ ds_table d = Readings.read_table acos mk (Readings.quantities k) t) /\
    (wanted_columns k <> [] -> forallb (Readings.has_values acos t) (Readings.quantities k) = false ->
       ds_simplified d = false /\ ds_table d = t /\ dget key_eqb (acc, Some num, p) errs' = Some NoValuesGivenError).
Proof.
  intros acos mk errs s SS. destruct (simplified_total c e D acos nm NC FQ FM acc raw mk errs s W SS) as (n & ds & errs' & n' & s' & E & A & G).
  destruct (simplifiedDataSets_spec _ _ _ _ _ _ _ _ _ _ _ _ E G) as (ds0 & errs0 & GD & _ & V & _).
  destruct (pointed_data_set n errs ds0 errs0 n' E A GD) as (d & X & IF & DS & DT).
  destruct (sets_ready c e acos nm acc raw n errs ds0 errs0 n' W SS E GD (acc, Some num, p, d)) as [(TO & CD & BR) _].
  { exact (dget_In _ key_eqb_eq _ _ _ X). }
  cbn [snd] in TO, CD, BR.
  assert (CK : ds_class_of d = k) by (destruct IF as (m & _ & _ & CK & _); exact CK).
  assert (WC : wanted_columns k = [] -> fst (Columns.run (getSimplified acos mk false d) store0) = Ok d \/ exists y, fst (Columns.run (getSimplified acos mk false d) store0) = Raise y).
  { intro Z. unfold getSimplified. rewrite CK. destruct k; try discriminate Z.
    - left. unfold X4DataSet_getSimplified. rewrite DS. reflexivity.
    - right. eexists. reflexivity.
    - left. reflexivity.
    - right. eexists. reflexivity. }
  pose proof (fun Z => simplified_read acos mk false d store0 TO CD BR DS Z) as SR. rewrite CK, DT in SR. cbv zeta in SR. cbn [andb] in SR.
  set (t := pointed_set p h1 h2 r1 r2 hd rows) in *.
  destruct (V _ _ X) as [(d' & Q & G' & _)|(y & Q & _ & G' & G2)].
  - exists n, ds, errs', n', s', d'. split; [exact E|]. split; [exact A|]. split; [exact G|]. split; [exact G'|].
    assert (CASE : (wanted_columns k = [] /\ d' = d) \/ (wanted_columns k <> [] /\ forallb (Readings.has_values acos t) (Readings.quantities k) = true /\
              d' = mkDS k (ds_meta d) (ds_reaction d) (ds_monitor d) (Readings.read_table acos mk (Readings.quantities k) t) true (ds_coupled d) (ds_frame d))).
    { destruct (wanted_columns k) eqn:Z.
      - left. split; [reflexivity|]. destruct (WC eq_refl) as [Y|(y & Y)]; rewrite Y in Q; congruence.
      - right. assert (NZ : s0 :: l <> []) by discriminate. specialize (SR NZ). rewrite SR in Q. split; [exact NZ|].
        destruct (forallb _ _); [split; [reflexivity|]; cbn [negb] in Q; congruence|discriminate Q]. }
    destruct CASE as [(Z & ->)|(Z & HV & ->)].
    + split; [exact IF|]. split; [auto|]. split; intro; congruence.
    + split; [destruct IF as (m & I1 & I2 & I3 & I4); exists m; cbn [ds_reaction ds_class_of ds_coupled]; auto|].
      split; [intro; congruence|]. split; [intros; split; reflexivity|intros _ HF; congruence].
  - exists n, ds, errs', n', s', d. split; [exact E|]. split; [exact A|]. split; [exact G|]. split; [exact G'|]. split; [exact IF|]. cbv zeta.
    split; [auto|]. split.
    + intros Z HV. rewrite (SR Z), HV in Q. discriminate Q.
    + intros Z HV. rewrite (SR Z), HV in Q. cbn [negb] in Q. split; [exact DS|]. split; [exact DT|congruence].
Qed.
End Data.

Lemma said_differ : forall l data piece, Forall2 gsaying l data -> In (PGroup piece) l -> (forall p, In (PGroup p) l -> exists r, p = general_tree r) ->
  exists rx, In rx (flat_map element_reactions data) /\ r_quant rx = tl piece.
Proof.
  intros l data piece F. induction F as [|y x l data H _ IH]; intros I G; [destruct I|]. cbn [flat_map]. destruct I as [->|I].
  - destruct (G piece (or_introl eq_refl)) as (r & ->). destruct (said_quantity _ _ (general_quantities r) H eq_refl) as (rx & E & Q).
    rewrite E. exists rx. split; [now left|exact Q].
  - destruct (IH I) as (rx & J & Q); [intros p J; apply G; now right|]. exists rx. split; [apply in_or_app; now right|exact Q].
Qed.

Section Unlike.
Context (c : codes) (e : env) (D : well_dictionaries c e).
Context (nm : names) (NC : has_names (c_compounds c) (nm_compounds nm)) (FQ : rows_filled (nm_quantities nm)) (FM : rows_filled (nm_modifiers nm)).

Lemma unlike_recorded : forall acc raw num text text1 data p code line l piece piece' errs, well_entry c acc raw ->
  last_such (numbered num) raw text -> last_such (numbered (acc ++ tx "001")) raw text1 ->
  stated text p code -> unstated text1 p \/ num = acc ++ tx "001" -> code_text c (Several l) line code ->
  (forall q, In (PGroup q) l -> exists r, good_general (c_particles c) (c_compounds c) r /\ known_general r /\ q = general_tree r) ->
  In (PGroup piece) l -> In (PGroup piece') l -> tl piece <> tl piece' -> has_section "DATA" text data ->
  exists n ds errs' n', X4Entry e raw = Ok n /\ n_accnum n = acc /\ getDataSets nm n errs = Ok (ds, errs', n') /\
    dget key_eqb (acc, Some num, p) ds = None /\ dget key_eqb (acc, Some num, p) errs' = Some NotImplementedError.
Proof.
  intros acc raw num text text1 data p code line l piece piece' errs W Ht Ht1 SR UR CT KN I1 I2 NE Hd.
  destruct (data_sets_total c e D nm NC FQ FM acc raw errs W) as (n & ds & errs' & n' & E & A & G).
  destruct (entry_total c e D acc raw W) as (n0 & z1 & b1 & E0 & _ & _ & _ & SND). assert (n0 = n) by congruence. subst n0.
  exists n, ds, errs', n'. split; [exact E|]. split; [exact A|]. split; [exact G|]. subst acc.
  assert (Hs : forall k t, last_such (numbered k) raw t -> sections_named t).
  { intros k0 t I. apply last_in in I. destruct I as [I _]. pose proof (well_subs _ _ _ W) as F. rewrite Forall_forall in F. now apply (well_named c), F. }
  destruct (entry_last _ _ _ _ _ E Ht) as (s & S & A' & I & Gs). destruct (entry_last _ _ _ _ _ E Ht1) as (s1 & S1 & A1 & J1 & G1).
  destruct (dataSets_values _ _ _ _ _ _ _ _ E G) as (s1' & J1' & V & _).
  assert (s1' = s1) as -> by exact (entry_same _ _ _ _ _ _ E G1 J1').
  destruct (V _ s p I) as [V1 V2]. clear V. pose proof (Hs _ _ Ht) as N0. pose proof (Hs _ _ Ht1) as N1.
  destruct (sub_table _ _ _ "DATA" _ S N0 (or_introl eq_refl) Hd) as (dd & _ & DD).
  destruct (stated_read e text s p code S N0 SR) as (r & Rr & DR).
  destruct CT as (ts & CE & F & PC). pose proof D as DW. destruct DW as [D1 D2 D3 D4 _ _ D7].
  destruct (general_combination c D1 D2 e ts l line code D3 D4 CE F KN) as (dat & R' & F2 & _). rewrite Rr in R'.
  assert (r = (MComb (EOp (tx "(") :: dat ++ [EOp (tx ")")]), PTok line)) by congruence. subst r. clear R'.
  pose proof (reactions_fair c s p _ (SND _ _ I) DR) as FR. cbn [fst] in FR.
  assert (T : tried nm n s1 s s p = Some (Raise NotImplementedError)).
  { unfold tried. rewrite DD, DR. cbn [fst]. unfold X4DataSetFactory.
    destruct (settle_quantity nm _ _) as [q|y] eqn:Q.
    - exfalso. apply DatasetLemmas.settled in Q. destruct Q as (ll & _ & C). apply DatasetLemmas.common_iff in C. cbn [reactions_in] in C. rewrite reactions_wrapped in C. destruct C as [_ C].
      rewrite Forall_forall in C. assert (GT : forall q0, In (PGroup q0) l -> exists r, q0 = general_tree r) by (intros q0 J; destruct (KN q0 J) as (r & _ & _ & ->); eauto).
      destruct (said_differ _ _ _ F2 I1 GT) as (ra & Ia & Qa). destruct (said_differ _ _ _ F2 I2 GT) as (rb & Ib & Qb).
      apply NE. rewrite <- Qa, <- Qb, (C _ Ia), (C _ Ib). reflexivity.
    - cbn [bind]. do 2 f_equal. exact (settle_recorded c nm NC FQ FM _ _ _ FR Q). }
  rewrite T in V1, V2. destruct UR as [UR| ->].
  - assert (T1 : tried nm n s1 s s1 p = None). { unfold tried. rewrite DD, (unstated_read e text1 s1 p S1 N1 UR). reflexivity. }
    rewrite T1 in V1, V2. cbn [ok_of exn_of last_some] in V1, V2. split; assumption.
  - assert (s1 = s) as -> by (rewrite Gs in G1; congruence). rewrite T in V1, V2. cbn [ok_of exn_of last_some] in V1, V2. split; assumption.
Qed.
End Unlike.
