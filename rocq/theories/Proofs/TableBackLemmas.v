(** Printed subentries are read as the same sections: tables and whole subentries. *)
From Coq Require Import String List Ascii NArith ZArith Bool Arith Lia Permutation Sorted.
From Verif.Model Require Import Py PyFloat Utilities Dicts Particle Reaction Field Section Entry.
From Verif.Spec Require Import Text Exfor Codes Document ReadBack.
From Verif.Proofs Require Import StrLemmas UtilLemmas NumLemmas IntLemmas DictLemmas ReactionLemmas FieldLemmas BibLemmas DataLemmas EntryLemmas ManagerLemmas ReadBackLemmas SectionsBackLemmas DocumentLemmas.
Import ListNotations.
Local Open Scope string_scope.
Local Open Scope list_scope.
Local Open Scope nat_scope.

(** ** No number begins with END *)

Lemma num_strip_E : forall s, exists s', num_strip ("E"%char :: s) = "E"%char :: s'.
Proof.
  intro s. unfold num_strip. change (num_lstrip ("E"%char :: s)) with ("E"%char :: s). cbn [rev].
  assert (K : forall t, exists u, num_lstrip (t ++ ["E"%char]) = u ++ ["E"%char]).
  { induction t as [|c t (u & IH)]; [exists []; reflexivity|]. cbn [app num_lstrip].
    destruct (is_num_space c); [exists u; exact IH|]. exists (c :: t). reflexivity. }
  destruct (K (rev s)) as (u & ->). exists (rev u). rewrite rev_app_distr. reflexivity.
Qed.
Lemma float_E : forall s, float_of_str ("E"%char :: s) = None.
Proof.
  intro s. unfold float_of_str. destruct (num_strip_E s) as (t & ->).
  cbn [drop_underscores]. change (Ascii.eqb "E" "_") with false. cbv iota. change (is_dig "E") with false.
  destruct (drop_underscores false t) as [u|]; [|reflexivity]. cbn [option_map take_sign].
  change (Ascii.eqb "E" "-") with false. change (Ascii.eqb "E" "+") with false. cbv iota.
  cbn [lower map]. reflexivity.
Qed.
Lemma parse_END : forall s v, starts_with_END s -> parseFORTRANNumber s = Ok v -> False.
Proof.
  intros s v (r & ->) H. unfold parseFORTRANNumber in H.
  assert (S : exists r', strip (tx "END" ++ r) = tx "END" ++ r').
  { unfold strip. change (lstrip (tx "END" ++ r)) with (tx "END" ++ r). unfold rstrip. rewrite rev_app_distr.
    assert (K : forall t, exists u, lstrip (t ++ rev (tx "END")) = u ++ rev (tx "END")).
    { induction t as [|c t (u & IH)]; [exists []; reflexivity|]. cbn [app lstrip].
      destruct (is_space c); [exists u; exact IH|]. exists (c :: t). reflexivity. }
    destruct (K (rev r)) as (u & ->). exists (rev u). now rewrite rev_app_distr, rev_involutive. }
  destruct S as (r' & S). rewrite S in H.
  change (str_eqb (tx "END" ++ r') []) with false in H. cbv iota in H.
  change (tx "END" ++ r) with ("E"%char :: lit "ND" ++ r) in H. rewrite float_E in H. cbv zeta in H.
  change (str_eqb (tx "END" ++ r') []) with false in H. cbv iota in H.
  assert (F : exists q, fortran_repair (tx "END" ++ r') = "E"%char :: q).
  { unfold fortran_repair. cbv zeta.
    assert (count_char "E" (tx "END" ++ r') <? 1 = false) as -> by (apply Nat.ltb_ge; cbn; lia).
    cbn [andb]. exists (replace_char sp [] (lit "ND" ++ r')). reflexivity. }
  destruct F as (q & F). rewrite F, float_E in H. discriminate.
Qed.

Lemma row_END : forall cells, columns 0 3 (print_row cells) = lit "END" -> starts_with_END (hd [] cells).
Proof.
  intros [|c cells] Q; [discriminate|]. cbn [hd]. unfold print_row in Q. cbn [map concat] in Q.
  unfold columns in Q. rewrite skipn_O in Q.
  assert (L : 3 <= length (ljust 11 c)) by (rewrite ljust_length; lia).
  rewrite firstn_app in Q. replace (3 - 0 - length (ljust 11 c)) with 0 in Q by lia. rewrite firstn_O, app_nil_r in Q.
  unfold ljust in Q. apply (END_head c (repeat sp (11 - length c))); auto. apply blank_repeat_sp.
Qed.

Lemma table_again : forall tag lines d, X4DataSection tag lines = Ok d -> plain_table d ->
  Forall (fun c => ~ white c) tag -> tag <> [] -> length tag <= 10 ->
  exists header body footer, split_char nl (data_repr d) = header :: body ++ [footer] /\
    columns 0 11 header = ljust 11 tag /\ columns 0 3 footer = lit "END" /\
    Forall (fun l => columns 0 3 l <> lit "END") body /\ X4DataSection tag (split_char nl (data_repr d)) = Ok d.
Proof.
  intros tag lines d H ([N1 N6] & [R0 R] & NL & NU) T1 T2 T3.
  set (nc := Z.to_nat (d_numcols d)). set (nr := Z.to_nat (d_numrows d)).
  assert (NC : d_numcols d = Z.of_nat nc) by (unfold nc; lia). assert (NR : d_numrows d = Z.of_nat nr) by (unfold nr; lia).
  assert (B : 1 <= nc <= 6) by lia. assert (R' : (Z.of_nat nr < 10 ^ 10)%Z) by lia.
  assert (AG := data_roundtrip_white tag lines d nc nr H NC B NR R' T1 T2 T3).
  assert (OK := data_ok _ _ _ H). assert (DR := data_rows _ _ _ H).
  destruct (data_cells _ _ _ _ H NC ltac:(lia)) as (r0 & r1 & _ & Hr0 & Hr1 & LA & UN & ROWS).
  destruct OK as (l0 & f1 & f2 & n0 & c & rows & _ & _ & _ & _ & _ & TAG & _).
  destruct DR as (_ & _ & LR & LD & F2).
  assert (CL : Forall clean (d_labels d)).
  { rewrite LA, Hr0. apply Forall_forall. intros t I. apply in_map_iff in I. destruct I as (j & <- & _). apply cell_clean. }
  assert (CU : Forall clean (d_units d)).
  { rewrite UN, Hr1. apply Forall_forall. intros t I. apply in_map_iff in I. destruct I as (j & <- & _). apply cell_clean. }
  assert (CR : forall row, In row (d_raw d) -> Forall clean row /\ length row = nc).
  { intros row I. apply In_nth_error in I. destruct I as (i & I).
    assert (Hi : i < Z.to_nat (d_numrows d)) by (rewrite <- LR; apply nth_error_Some; congruence).
    destruct (ROWS i Hi) as [_ Q]. rewrite Q in I. injection I as <-. split.
    - apply Forall_forall. intros t I. apply in_map_iff in I. destruct I as (j & <- & _). apply cell_clean.
    - now rewrite map_length, seq_length. }
  assert (LL : length (d_labels d) = nc) by (rewrite LA; now rewrite map_length, seq_length).
  assert (LU : length (d_units d) = nc) by (rewrite UN; now rewrite map_length, seq_length).
  destruct (z_to_str_word nc 1 ltac:(lia) ltac:(change (10 ^ Z.of_nat 1)%Z with 10%Z; lia)) as (W1 & _ & _).
  destruct (z_to_str_word nr 10 ltac:(lia) R') as (W2 & _ & _).
  set (hdr := ljust 11 tag ++ rjust 11 (z_to_str (d_numcols d)) ++ rjust 11 (z_to_str (d_numrows d))).
  set (body := print_row (d_labels d) :: print_row (d_units d) :: map print_row (d_raw d)).
  set (ftr := ljust 11 (lit "END" ++ tag) ++ rjust 11 (z_to_str (d_numrows d + 2))).
  assert (BODY : forall l, In l body -> card l).
  { intros l [<-|[<-|I]].
    - apply print_row_card; auto; lia.
    - apply print_row_card; auto; lia.
    - apply in_map_iff in I. destruct I as (row & <- & I). destruct (CR row I). apply print_row_card; auto; lia. }
  assert (PAD : forall n w, ~ In nl w -> ~ In nl (ljust n w) /\ ~ In nl (rjust n w)).
  { intros n w Hw. unfold ljust, rjust. split; intro I; apply in_app_or in I; destruct I as [I|I]; auto; now apply sp_not_nl in I. }
  assert (NT : ~ In nl tag) by (apply no_space_no_nl; now apply no_space_white).
  assert (SPLIT : split_char nl (data_repr d) = hdr :: body ++ [ftr]).
  { rewrite repr_lines. rewrite TAG. fold hdr body ftr. apply split_comma; [discriminate|].
    intros x I. destruct I as [<-|I]; [|apply in_app_or in I; destruct I as [I|[<-|[]]]].
    - unfold hdr. rewrite !in_app_iff. intros [I|[I|I]]; revert I; apply PAD; auto; apply no_space_no_nl.
      + rewrite NC. exact W1.
      + rewrite NR. exact W2.
    - now destruct (BODY x I).
    - unfold ftr. rewrite in_app_iff. intros [I|I]; revert I; apply PAD.
      + rewrite in_app_iff. intros [I|I]; [|contradiction].
        cbn in I. repeat (destruct I as [I|I]; [discriminate|]). destruct I.
      + apply no_space_no_nl. rewrite NR.
        replace (Z.of_nat nr + 2)%Z with (Z.of_nat (nr + 2)) by lia.
        apply (z_to_str_word (nr + 2) 11); [lia|]. change (10 ^ Z.of_nat 11)%Z with 100000000000%Z.
        change (10 ^ 10)%Z with 10000000000%Z in R. lia. }
  exists hdr, body, ftr. split; [exact SPLIT|]. split; [|split; [|split; [|exact AG]]].
  - unfold hdr, columns. rewrite skipn_O. assert (length (ljust 11 tag) = 11) by (rewrite ljust_length; lia).
    rewrite firstn_app, H0. cbn [Nat.sub]. rewrite firstn_O, app_nil_r. apply firstn_all2. lia.
  - reflexivity.
  - unfold body. constructor; [intro Q; now apply NL, row_END|]. constructor; [intro Q; now apply NU, row_END|].
    apply Forall_forall. intros l I Q. apply in_map_iff in I. destruct I as (row & <- & I). apply row_END in Q.
    assert (X : forall raw data, Forall2 (fun raw vals => length raw = Z.to_nat (d_numcols d) /\
              Forall2 (fun t v => parseFORTRANNumber t = Ok v) raw vals) raw data -> In row raw ->
              exists vals, length row = Z.to_nat (d_numcols d) /\ Forall2 (fun t v => parseFORTRANNumber t = Ok v) row vals).
    { clear. induction 1 as [|x y raw data P F IH]; intro I; [destruct I|]. destruct I as [->|I]; eauto. }
    destruct (X _ _ F2 I) as (vals & LN & PV). destruct row as [|t row]; [cbn in LN; lia|].
    inversion PV; subst. cbn [hd] in Q. eapply parse_END; eauto.
Qed.

(** ** Subentries *)

Definition again (e : env) (k : str) (x : section) : Prop :=
  exists r header body footer, section_repr x = Ok r /\ split_char nl r = header :: body ++ [footer] /\
    columns 0 11 header = ljust 11 k /\ columns 0 3 footer = lit "END" /\ Forall (fun l => columns 0 3 l <> lit "END") body /\
    make_section e (split_char nl r) = Ok (k, x).

Lemma section_header : forall name header, section_name name -> columns 0 11 header = ljust 11 (lit name) ->
  extractX4SectionType [header] = Some (lit name) /\ (keyword_line "BIB" header \/ keyword_line "DATA" header \/ keyword_line "COMMON" header).
Proof.
  intros name header S C.
  assert (C10 : columns 0 10 header = firstn 10 (ljust 11 (lit name))).
  { rewrite <- C. unfold columns. rewrite !skipn_O, firstn_firstn. reflexivity. }
  split.
  - cbn [extractX4SectionType]. change (slice header 0 10) with (columns 0 10 header). rewrite C10.
    destruct S as [<-|[<-|[<-|[]]]]; reflexivity.
  - destruct S as [<-|[<-|[<-|[]]]]; [left|right; left|right; right]; apply strip_iff; rewrite C; reflexivity.
Qed.

Lemma extract_first : forall l ls k, extractX4SectionType [l] = Some k -> extractX4SectionType (l :: ls) = Some k.
Proof.
  intros l ls k H. cbn [extractX4SectionType] in *. destruct (smem (strip (slice l 0 10)) section_names); [exact H|discriminate].
Qed.

Lemma last_named : forall kw (bs : list (list str)), (exists b, last_such (field_keyword kw) bs b) \/ Forall (fun b => ~ field_keyword kw b) bs.
Proof.
  intros kw. induction bs as [|b bs [(x & pre & post & -> & K & F)|IH]].
  - right. constructor.
  - left. exists x, (b :: pre), post. auto.
  - assert (D : field_keyword kw b \/ ~ field_keyword kw b).
    { destruct b as [|l ls]; [right; intros (f & r & Q & _); discriminate|].
      destruct (str_eqb (strip (columns 0 10 l)) kw) eqn:Q.
      - left. exists l, ls. split; [reflexivity|]. apply strip_iff. now apply str_eqb_eq in Q.
      - right. intros (f & r & X & K). injection X as <- <-. apply strip_iff in K. rewrite K, str_eqb_refl in Q. discriminate. }
    destruct D as [D|D]; [left; exists b, [], bs; auto|right; constructor; auto].
Qed.

Lemma blocks_in : forall P Q lines bs, blocks P Q lines bs -> forall b l, In b bs -> In l b -> In l lines.
Proof.
  induction 1 as [|line lines bs N B IH|first body last lines bs S F E B IH|first body S F]; intros b l I J.
  - destruct I.
  - right. now apply (IH b l).
  - destruct I as [<-|I].
    + destruct J as [<-|J]; [now left|]. right. apply in_or_app. apply in_app_or in J.
      destruct J as [J|[<-|[]]]; [now left|right; now left].
    + right. apply in_or_app. right. right. now apply (IH b l).
  - destruct I.
Qed.

Lemma section_again : forall e text s name x, X4SubEntry e text = Ok s -> sections_named text -> section_name name ->
  dget str_eqb (lit name) (s_dict s) = Some x ->
  (forall b, has_section "BIB" text b -> plain_bib b) ->
  (forall k d, dget str_eqb k (s_dict s) = Some (SData d) -> plain_table d) ->
  again e (lit name) x.
Proof.
  intros e text s name x E N S G PB PT.
  set (lines := split_char nl text).
  assert (LO : lines_of text lines) by apply split_lines.
  assert (SC : sections lines (subentry_chunkify lines)) by now apply subentry_chunkify_iff.
  assert (HS : exists b, has_section name text b).
  { destruct (last_named (tx name) (subentry_chunkify lines)) as [(b & L)|F].
    - exists b, lines, (subentry_chunkify lines). auto.
    - exfalso. assert (Z := sub_none e text s name E N). unfold Dataset.sub_section in Z. rewrite G in Z.
      discriminate Z. exists lines, (subentry_chunkify lines). auto. }
  destruct HS as (b & HS). destruct (sub_has e text s name b E N S HS) as (x' & M & G').
  unfold Dataset.sub_section in G'. rewrite G in G'. injection G' as <-.
  assert (NN : forall l, In l b -> ~ In nl l).
  { intros l I. destruct HS as (lines' & bs & LO' & SC' & (pre & post & -> & _ & _)).
    assert (J : In l lines').
    { apply (blocks_in _ _ _ _ SC' b l); auto. apply in_or_app. right. now left. }
    destruct LO' as (_ & _ & F). rewrite Forall_forall in F. now apply F. }
  unfold make_section in M. destruct (extractX4SectionType b) as [t|]; [|discriminate].
  destruct (str_eqb t (lit "BIB")) eqn:Q.
  - apply bind_ok in M. destruct M as (bb & Eb & M). injection M as -> <-. apply str_eqb_eq in Q.
    assert (name = "BIB") as -> by (destruct S as [<-|[<-|[<-|[]]]]; [reflexivity|discriminate|discriminate]). clear Q.
    destruct (bib_again e b bb Eb NN (PB b HS)) as (r & h & body & ft & R & SP & C1 & C2 & F & AG).
    exists r, h, body, ft. split; [exact R|]. split; [exact SP|]. split; [exact C1|]. split; [|split; [exact F|]].
    + assert (columns 0 3 ft = firstn 3 (columns 0 11 ft)) as ->.
      { unfold columns. rewrite !skipn_O, firstn_firstn. reflexivity. }
      rewrite C2. reflexivity.
    + unfold make_section. destruct (section_header "BIB" h S C1) as [X _]. rewrite SP in *.
      rewrite (extract_first _ _ _ X). change (str_eqb (lit "BIB") (lit "BIB")) with true. cbv iota. now rewrite AG.
  - apply bind_ok in M. destruct M as (d & Ed & M). injection M as -> <-.
    assert (TW : Forall (fun c => ~ white c) (lit name) /\ lit name <> [] /\ length (lit name) <= 10).
    { destruct S as [<-|[<-|[<-|[]]]]; (split; [|split; [discriminate|cbn; lia]]); apply no_space_white; intros c I;
        cbn in I; repeat (destruct I as [<-|I]; [reflexivity|]); destruct I. }
    destruct TW as (T1 & T2 & T3).
    destruct (table_again (lit name) b d Ed (PT _ _ G) T1 T2 T3) as (h & body & ft & SP & C1 & C2 & F & AG).
    exists (data_repr d), h, body, ft. split; [reflexivity|]. repeat (split; [assumption|]).
    unfold make_section. destruct (section_header name h S C1) as [X _]. rewrite SP in *.
    rewrite (extract_first _ _ _ X), Q. now rewrite AG.
Qed.

Lemma fold_names : forall e bs d d', section_fold e bs d = Ok d' -> (forall k, In k (dkeys d) -> In k section_names) ->
  NoDup (dkeys d) -> (forall k, In k (dkeys d') -> In k section_names) /\ NoDup (dkeys d').
Proof.
  intros e. induction bs as [|b bs IH]; intros d d' E I N; [injection E as <-; auto|].
  cbn [section_fold fold_res] in E. apply bind_ok in E. destruct E as (d1 & E1 & E). apply bind_ok in E1.
  destruct E1 as ([k x] & Em & E1). injection E1 as <-. cbn [fst snd] in E.
  assert (Ik : In k section_names).
  { unfold make_section in Em. destruct (extractX4SectionType b) as [t|] eqn:X; [|discriminate].
    assert (T : In t section_names).
    { clear - X. induction b as [|l b IH]; [discriminate|]. cbn [extractX4SectionType] in X.
      destruct (smem (strip (slice l 0 10)) section_names) eqn:Q; [injection X as <-; now apply smem_In|auto]. }
    destruct (str_eqb t (lit "BIB")); apply bind_ok in Em; destruct Em as (y & _ & Em); injection Em as <- _; exact T. }
  assert (K : forall (d : list (str * section)), (forall q, In q (dkeys (dset str_eqb k x d)) -> In q (dkeys d) \/ q = k) /\
            (NoDup (dkeys d) -> NoDup (dkeys (dset str_eqb k x d)))).
  { clear. induction d as [|[q v] d [A B]]; cbn [dset dkeys map fst].
    - split; [intros q [<-|[]]; auto|]. intros _. constructor; [intros []|constructor].
    - destruct (str_eqb k q) eqn:E; cbn [map fst].
      + apply str_eqb_eq in E. subst. split; auto.
      + split; [intros r [<-|J]; [left; now left|]; destruct (A r J); auto; left; now right|].
        intro ND. inversion ND; subst. constructor; [|now apply B]. intro J. destruct (A q J) as [J'| ->]; [contradiction|].
        rewrite str_eqb_refl in E. discriminate. }
  destruct (K d) as [K1 K2]. apply (IH _ _ E).
  - intros q J. destruct (K1 q J) as [J'| ->]; auto.
  - now apply K2.
Qed.

Lemma fold_again : forall e ks (gs : list (list str)) xs, Forall2 (fun g kx => make_section e g = Ok kx) gs (combine ks xs) ->
  length ks = length xs -> NoDup ks -> forall d, (forall k, In k ks -> ~ In k (dkeys d)) -> section_fold e gs d = Ok (d ++ combine ks xs).
Proof.
  intros e. induction ks as [|k ks IH]; intros gs [|x xs] F L ND d N; try discriminate; cbn [combine] in *.
  - inversion F; subst. cbn. now rewrite app_nil_r.
  - inversion F as [|g ? gs' ? M F']; subst. inversion ND as [|? ? N1 N2]; subst. injection L as L.
    cbn [section_fold fold_res]. rewrite M. cbn [bind fst snd].
    rewrite (dset_absent _ _ str_eqb str_eqb_eq) by (apply N; now left).
    fold (section_fold e gs' (d ++ [(k, x)])). rewrite (IH gs' xs F' L N2).
    + now rewrite <- app_assoc.
    + intros q I J. unfold dkeys in J. rewrite map_app in J. apply in_app_or in J.
      destruct J as [J|[J|[]]]; [apply (N q); auto; now right|]. cbn in J. subst. contradiction.
Qed.

Lemma combine_dget : forall (d : list (str * section)) ks xs, Forall2 (fun k x => dget str_eqb k d = Some x) ks xs ->
  (forall k x, dget str_eqb k d = Some x -> In k ks) -> forall k, dget str_eqb k (combine ks xs) = dget str_eqb k d.
Proof.
  intros d ks xs F C k.
  assert (K : (In k ks -> dget str_eqb k (combine ks xs) = dget str_eqb k d) /\ (~ In k ks -> dget str_eqb k (combine ks xs) = None)).
  { clear C. induction F as [|q x ks xs E F [I1 I2]]; cbn [combine dget]; [split; [intros []|auto]|].
    destruct (str_eqb k q) eqn:Q.
    - apply str_eqb_eq in Q. subst q. split; [auto|]. intro N. exfalso. apply N. now left.
    - split; [intros [->|I]; [rewrite str_eqb_refl in Q; discriminate|auto]|]. intro N. apply I2. intro I. apply N. now right. }
  destruct (dget str_eqb k d) eqn:E.
  - apply K. eauto.
  - destruct (in_dec (list_eq_dec ascii_dec) k ks) as [I|I]; [now rewrite (proj1 K I)|now apply K].
Qed.

Lemma accnum_no_nl : forall e text s a, X4SubEntry e text = Ok s -> s_accnum s = Some a -> ~ In nl a.
Proof.
  intros e text s a E A I. apply (numbered_accnum e text s a E) in A.
  destruct A as (lines & pre & l & post & (_ & _ & F) & -> & _ & _ & ->).
  rewrite Forall_forall in F. apply (F l); [apply in_or_app; right; now left|].
  change (columns 14 22 l) with (slice l 14 22) in I. now apply in_slice in I.
Qed.

Lemma subentry_again : forall e text s, X4SubEntry e text = Ok s -> sections_named text -> s_accnum s <> None ->
  (forall b, has_section "BIB" text b -> plain_bib b) ->
  (forall k d, dget str_eqb k (s_dict s) = Some (SData d) -> plain_table d) ->
  exists t s', subentry_repr s = Ok t /\ X4SubEntry e t = Ok s' /\
    forall k, dget str_eqb k (s_dict s') = dget str_eqb k (s_dict s).
Proof.
  intros e text s E N A PB PT. destruct (s_accnum s) as [a|] eqn:EA; [clear A|congruence].
  assert (FN := sub_fold e text s E). apply fold_names in FN; [|intros k []|constructor]. destruct FN as [KN KD].
  set (ks := subentry_sorted_keys s).
  assert (KS : NoDup ks) by (now apply ssort_NoDup).
  assert (KI : forall k, In k ks <-> In k (dkeys (s_dict s))) by (intro; apply ssort_In).
  assert (AG : forall k, In k ks -> exists x, dget str_eqb k (s_dict s) = Some x /\ again e k x).
  { intros k I. apply KI in I. assert (exists name, section_name name /\ k = lit name) as (name & S & ->).
    { apply KN in I. destruct I as [<-|[<-|[<-|[]]]]; eexists; (split; [|reflexivity]); unfold section_name; cbn; auto. }
    destruct (dget str_eqb (lit name) (s_dict s)) as [x|] eqn:G.
    - exists x. split; auto. now apply (section_again e text s name x).
    - exfalso. apply (dget_None _ str_eqb_eq) in G. contradiction. }
  assert (ALL : exists xs gs, Forall2 (fun k x => dget str_eqb k (s_dict s) = Some x) ks xs /\
      map_res (fun k => x <- of_option KeyError (dget str_eqb k (s_dict s)) ;; section_repr x) ks = Ok (map (join [nl]) gs) /\
      Forall2 (fun g kx => make_section e g = Ok kx) gs (combine ks xs) /\
      Forall (fun g => g <> [] /\ (forall l, In l g -> ~ In nl l) /\ exists header body footer, g = header :: body ++ [footer] /\
        (keyword_line "BIB" header \/ keyword_line "DATA" header \/ keyword_line "COMMON" header) /\ columns 0 3 footer = lit "END" /\
        Forall (fun l => columns 0 3 l <> lit "END") body) gs).
  { assert (KN' : forall k, In k ks -> In k section_names) by (intros k I; apply KN, KI, I). clear - AG KN'. induction ks as [|k ks IH].
    - exists [], []. repeat split; constructor.
    - destruct (AG k (or_introl eq_refl)) as (x & G & r & h & body & ft & R & SP & C1 & C2 & F & M).
      destruct IH as (xs & gs & I1 & I2 & I3 & I4); [intros; apply AG; now right|intros; apply KN'; now right|].
      assert (LO := split_lines r). rewrite SP in LO.
      assert (HK : keyword_line "BIB" h \/ keyword_line "DATA" h \/ keyword_line "COMMON" h).
      { assert (exists name, section_name name /\ k = lit name) as (name & S & ->).
        { destruct (KN' k (or_introl eq_refl)) as [<-|[<-|[<-|[]]]]; eexists; (split; [|reflexivity]); unfold section_name; cbn; auto. }
        now apply (section_header name h S C1). }
      exists (x :: xs), ((h :: body ++ [ft]) :: gs). split; [constructor; auto|]. split; [|split].
      + cbn [map_res]. rewrite G. cbn [of_option bind]. rewrite R. cbn [bind]. rewrite I2. cbn [bind map].
        f_equal. f_equal. destruct LO as (NE & -> & _). now apply lines_join.
      + cbn [combine]. constructor; auto. now rewrite <- SP.
      + constructor; auto. split; [discriminate|]. split.
        * destruct LO as (_ & _ & FL). rewrite Forall_forall in FL. exact FL.
        * exists h, body, ft. auto. }
  destruct ALL as (xs & gs & A1 & A2 & A3 & A4).
  assert (LX : length ks = length xs) by (clear - A1; induction A1; cbn; auto).
  set (hdr := ljust 11 (lit "SUBENT") ++ ljust 11 a). rewrite Forall_forall in A4.
  assert (NH : ~ In nl hdr).
  { unfold hdr, ljust. rewrite !in_app_iff. intros [[I|I]|[I|I]].
    - cbn in I. repeat (destruct I as [I|I]; [discriminate|]). destruct I.
    - now apply sp_not_nl in I.
    - revert I. now apply (accnum_no_nl e text s a).
    - now apply sp_not_nl in I. }
  assert (NF : ~ In nl (ljust 11 (lit "ENDSUBENT"))) by (vm_compute; intuition discriminate).
  assert (SP : split_char nl (hdr ++ [nl] ++ concat (map (fun r => r ++ [nl]) (map (join [nl]) gs)) ++ ljust 11 (lit "ENDSUBENT"))
             = hdr :: concat gs ++ [ljust 11 (lit "ENDSUBENT")]).
  { apply split_blocks; auto.
    - intros g I. now destruct (A4 g I).
    - intros g l I. destruct (A4 g I) as (_ & Q & _). apply Q. }
  assert (CK : subentry_chunkify (hdr :: concat gs ++ [ljust 11 (lit "ENDSUBENT")]) = gs).
  { apply subentry_chunkify_iff. 
    assert (NS : forall x, columns 0 11 x = ljust 11 (lit "SUBENT") \/ columns 0 11 x = ljust 11 (lit "ENDSUBENT") ->
               ~ (keyword_line "BIB" x \/ keyword_line "DATA" x \/ keyword_line "COMMON" x)).
    { intros x Q K. destruct Q as [Q|Q]; destruct K as [K|[K|K]]; apply strip_iff in K; rewrite Q in K; discriminate. }
    apply blocks_junk; [apply NS; left; reflexivity|].
    clear - A4 NS. induction gs as [|g gs IH].
    - cbn [concat app]. apply blocks_junk; [apply NS; right; reflexivity|constructor].
    - destruct (A4 g (or_introl eq_refl)) as (_ & _ & h & body & ft & -> & HK & HF & HB).
      replace (concat ((h :: body ++ [ft]) :: gs) ++ [ljust 11 (lit "ENDSUBENT")])
        with (h :: body ++ ft :: (concat gs ++ [ljust 11 (lit "ENDSUBENT")])) by (cbn [concat app]; now rewrite <- !app_assoc).
      apply blocks_block; auto. apply IH. intros g I. apply A4. now right. }
  assert (FA := fold_again e ks gs xs A3 LX KS [] ltac:(intros k _ [])).
  exists (hdr ++ [nl] ++ concat (map (fun r => r ++ [nl]) (map (join [nl]) gs)) ++ ljust 11 (lit "ENDSUBENT")). eexists. split.
  { unfold subentry_repr. rewrite EA. cbn [of_option bind]. fold ks. rewrite A2. cbn [bind]. unfold hdr. now rewrite <- app_assoc. }
  split.
  - unfold X4SubEntry, X4SubEntry_lines. rewrite SP, CK. unfold section_fold in FA. rewrite FA. cbn [bind app]. reflexivity.
  - cbn [s_dict]. apply combine_dget; auto. intros k x G. apply KI. apply (dget_Some_keys _ str_eqb_eq). eauto.
Qed.

(** ** The layout *)

Lemma sorted_names : forall l, NoDup l -> (forall k, In k l -> In k section_names) ->
  ssort l = filter (fun k => smem k l) [tx "BIB"; tx "COMMON"; tx "DATA"].
Proof.
  intros l ND I.
  assert (L : length l <= 3) by (change 3 with (length section_names); now apply NoDup_incl_length).
  assert (D : forall k, In k l -> k = tx "BIB" \/ k = tx "DATA" \/ k = tx "COMMON").
  { intros k J. destruct (I k J) as [<-|[<-|[<-|[]]]]; auto. }
  destruct l as [|a [|b [|c [|x l]]]]; cbn [length] in L; try lia; clear L.
  - reflexivity.
  - destruct (D a (or_introl eq_refl)) as [->|[->| ->]]; reflexivity.
  - inversion ND as [|? ? N1 N2]; subst. 
    destruct (D a (or_introl eq_refl)) as [->|[->| ->]]; destruct (D b (or_intror (or_introl eq_refl))) as [->|[->| ->]];
      try (exfalso; apply N1; now left); reflexivity.
  - inversion ND as [|? ? N1 N2]; subst. inversion N2 as [|? ? N3 _]; subst.
    destruct (D a (or_introl eq_refl)) as [->|[->| ->]]; destruct (D b (or_intror (or_introl eq_refl))) as [->|[->| ->]];
      try (exfalso; apply N1; now left);
      destruct (D c (or_intror (or_intror (or_introl eq_refl)))) as [->|[->| ->]];
      try (exfalso; apply N1; right; now left); try (exfalso; apply N3; now left); reflexivity.
Qed.

Lemma subentry_layout : forall e text s t, X4SubEntry e text = Ok s -> subentry_repr s = Ok t ->
  exists a rs, s_accnum s = Some a /\
    Forall2 (fun k r => exists x, dget str_eqb k (s_dict s) = Some x /\ section_repr x = Ok r)
            (filter (fun k => smem k (dkeys (s_dict s))) [tx "BIB"; tx "COMMON"; tx "DATA"]) rs /\
    t = tx "SUBENT     " ++ a ++ repeat " "%char (11 - length a) ++ [nl] ++ concat (map (fun r => r ++ [nl]) rs) ++ tx "ENDSUBENT  ".
Proof.
  intros e text s t E R. unfold subentry_repr in R.
  destruct (s_accnum s) as [a|]; [|discriminate]. cbn [of_option bind] in R. apply bind_ok in R. destruct R as (rs & M & R).
  assert (OI : forall (x y : str), Ok x = Ok y -> x = y) by congruence. apply OI in R. subst t. exists a, rs. split; [reflexivity|].
  assert (FN := sub_fold e text s E). apply fold_names in FN; [|intros k []|constructor]. destruct FN as [KN KD].
  split; [|unfold ljust at 2; now rewrite <- !app_assoc].
  unfold subentry_sorted_keys in M. rewrite (sorted_names _ KD KN) in M. apply map_res_Ok_inv in M.
  clear - M. induction M as [|k r ks rs H M IH]; constructor; auto.
  apply bind_ok in H. destruct H as (x & G & H). exists x. split; auto.
  destruct (dget str_eqb k (s_dict s)); [|discriminate]. cbn in G. injection G as ->. reflexivity.
Qed.
