(** What headers, legends and citations say of entries that keep to the format. *)
From Coq Require Import String List Ascii NArith ZArith Bool Arith Lia Sorted.
From Verif.Model Require Import Py PyFloat Utilities Dicts Particle Reaction Field Section Entry Columns Dataset Pyparsing Grammars Print Show.
From Verif.Spec Require Import Text Exfor Tables DataSets Merging Codes Balance General Known GeneralKnown Names References Document Query ReadBack WellWritten Printable Shown Headers.
From Verif.Proofs Require Import StrLemmas NumLemmas IntLemmas ReactionLemmas DictLemmas ManagerLemmas FieldLemmas BibLemmas DataLemmas EntryLemmas EntryDataLemmas GrammarLemmas BalanceLemmas KnownLemmas GeneralLemmas IsomerLemmas MonitorLemmas AuthorLemmas InstituteLemmas ReferenceLemmas NamesExamples TextTableLemmas DocumentLemmas RetrieveLemmas ReadBackLemmas TableBackLemmas WellLemmas PrintableLemmas PrintableWell DatasetLemmas ShowLemmas.
Import ListNotations.
Local Open Scope string_scope.
Local Open Scope list_scope.
Local Open Scope nat_scope.

(** ** Years *)

Lemma year_digits : forall s y, parseX4Year s = Ok y -> y <> tx "None".
Proof.
  intros s y H. unfold parseX4Year in H. set (d := replace_char ")"%char [] s) in *. destruct (str_isdigit d) eqn:I; [|discriminate H]. cbn [negb] in H.
  assert (F : Forall (fun a => is_digit_py a = true) d). { unfold str_isdigit in I. destruct d; [discriminate I|]. apply Forall_forall. intros x J. rewrite forallb_forall in I. now apply I. }
  assert (Y : forall l, Forall (fun a => is_digit_py a = true) l -> l <> tx "None").
  { intros l Fl ->. inversion Fl as [|? ? X _]. vm_compute in X. discriminate X. }
  assert (FN : forall k l, Forall (fun a => is_digit_py a = true) l -> Forall (fun a => is_digit_py a = true) (firstn k l)).
  { intros k l. revert k. induction l as [|x l IH]; intros [|k] Fl; cbn [firstn]; try constructor; inversion Fl; auto. }
  cbv zeta in H.
  set (a := if length d =? 6 then drop_last_n 2 d else d) in *.
  assert (Fa : Forall (fun a => is_digit_py a = true) a) by (unfold a, drop_last_n; destruct (length d =? 6); auto).
  set (b := if length a =? 8 then drop_last_n 4 a else a) in *.
  assert (Fb : Forall (fun a => is_digit_py a = true) b) by (unfold b, drop_last_n; destruct (length a =? 8); auto).
  destruct ((length b =? 4) && _); [apply Y; congruence|].
  set (g := if length b =? 4 then firstn 2 b else b) in *.
  assert (Fg : Forall (fun a => is_digit_py a = true) g) by (unfold g; destruct (length b =? 4); auto).
  destruct (length g =? 2); [|apply Y; congruence]. apply bind_ok in H. destruct H as (n & _ & H).
  assert (y = lit "19" ++ g \/ y = lit "20" ++ g) as [-> | ->] by (destruct (10 <? n)%Z; [left|right]; congruence); intro E; discriminate E.
Qed.

(** ** One BIB section *)

Definition no_field (kw : string) (section : list (list ascii)) : Prop := ~ exists f, has_field kw section f.
Lemma has_field_fun : forall kw section f g, has_field kw section f -> has_field kw section g -> f = g.
Proof.
  intros kw section f g (fs & F & L) (gs & G & M). assert (gs = fs).
  { assert (X : forall xs, fields section xs -> bib_chunkify section = xs) by (intros xs (first & rest & -> & O & K & Q); now apply bib_chunkify_fields).
    rewrite <- (X _ F), <- (X _ G). reflexivity. }
  subst gs. exact (last_fun _ _ _ _ _ L M).
Qed.

Record meta_said (e : env) (section : list (list ascii)) (m : bibmeta) : Prop := {
  said_author : (exists fld l, has_field "AUTHOR" section fld /\ bm_author m = AList l /\ authors_named fld l) \/
                (no_field "AUTHOR" section /\ bm_author m = ANone);
  said_title : (exists fld, has_field "TITLE" section fld /\ title_shown fld (bm_title m)) \/
               (no_field "TITLE" section /\ bm_title m = tx "None");
  said_institute : (exists fld l, has_field "INSTITUTE" section fld /\ bm_institute m = Some l /\ institutes_shown e fld (Print.institutes_str l)) \/
                   (no_field "INSTITUTE" section /\ bm_institute m = None);
  said_reference : (exists fld x r, has_field "REFERENCE" section fld /\ bm_reference m = Some x /\ references_shown e fld (reference_str x) /\
                      first_reference fld r /\ parseX4Year (digits_text (rt_date r)) = Ok (bm_year m) /\ ref_date x = digits_text (rt_date r)) \/
                   (no_field "REFERENCE" section /\ bm_reference m = None /\ bm_year m = tx "None") }.

Lemma institutes_texts : forall l, Field.institutes_str l = Print.institutes_str l.
Proof.
  intro l. unfold Field.institutes_str, Print.institutes_str. f_equal. apply map_ext. intros [[a n] k]. destruct k; [now rewrite app_nil_r|reflexivity].
Qed.

Lemma bib_said : forall c e, well_dictionaries c e -> forall section b sub, well_bib c section -> X4BibSection e section = Ok b ->
  exists m b', X4BibMetaData b sub = Ok (m, b') /\ bm_subent m = sub /\ meta_said e section m.
Proof.
  intros c e D section b sub (fs & F & W) H.
  assert (CH : bib_chunkify section = fs) by (destruct F as (first & rest & -> & O & K & M); now apply bib_chunkify_fields).
  assert (LOOK : forall kw, kw <> "" -> (exists fld f, has_field kw section fld /\ well_field c fld /\ fld <> [] /\ field_keyword (tx kw) fld /\
      make_field e (key_of (tx kw)) fld = Ok f /\ bib_field b kw = Some (Some f)) \/ (no_field kw section /\ bib_field b kw = None)).
  { intros kw NK. assert (KE : Some (lit kw) = key_of (tx kw)) by (destruct kw; [contradiction|reflexivity]). unfold bib_field.
    change (@Some str (lit kw)) with (@Some (list ascii) (lit kw)). rewrite KE. destruct (dget tag_eqb (key_of (tx kw)) (b_dict b)) as [x|] eqn:G.
    - left. assert (G' := G). apply (bib_lookup e section b H) in G'. destruct G' as (fld & f & LA & MF & ->). rewrite CH in LA. exists fld, f.
      destruct (last_in _ _ _ _ LA) as (I & K). rewrite Forall_forall in W. split; [exists fs; auto|]. split; [now apply W|]. split; [destruct K as (l & ls & -> & _); discriminate|]. auto.
    - right. split; [|reflexivity]. intros (fld & gs & G1 & LA).
      assert (gs = fs). { rewrite <- CH. destruct G1 as (first & rest & -> & O & K & M). symmetry. now apply bib_chunkify_fields. } subst gs.
      destruct (last_in _ _ _ _ LA) as (I & K). rewrite Forall_forall in W. 
      destruct (field_total c e D (tx kw) fld K (W _ I)) as (f & MF & _).
      assert (X : dget tag_eqb (key_of (tx kw)) (b_dict b) = Some (Some f)) by (apply (bib_lookup e section b H); rewrite CH; eauto). congruence. }
  assert (AU : exists a, match bib_field b "AUTHOR" with None => Ok ANone | Some (Some (FAuthor a)) => Ok (AList (a_authors a)) | Some _ => Raise AttributeError end = Ok a /\
     ((exists fld l, has_field "AUTHOR" section fld /\ a = AList l /\ authors_named fld l) \/ (no_field "AUTHOR" section /\ a = ANone))).
  { destruct (LOOK "AUTHOR") as [(fld & f & HF & WF & NE & K & MF & ->)|(NO & ->)]; [discriminate| |eexists; split; [reflexivity|right; auto]].
    destruct (author_field_named c e D fld NE (well_author _ _ WF K)) as (a & E & AN & _).
    unfold make_field in MF. cbn [key_of tag_eqb] in MF. change (key_of (tx "AUTHOR")) with (Some (lit "AUTHOR")) in MF. cbn [tag_eqb] in MF.
    change (str_eqb (lit "AUTHOR") (lit "REACTION")) with false in MF. change (str_eqb (lit "AUTHOR") (lit "MONITOR")) with false in MF.
    change (str_eqb (lit "AUTHOR") (lit "REFERENCE")) with false in MF. change (str_eqb (lit "AUTHOR") (lit "AUTHOR")) with true in MF. cbv iota in MF.
    rewrite E in MF. cbn [bind fst snd] in MF. assert (f = FAuthor a) by congruence. subst f. eexists. split; [reflexivity|]. left. eauto. }
  assert (IN : exists i, match bib_field b "INSTITUTE" with None => Ok None | Some (Some (FInstitute _ l)) => Ok (Some l) | Some _ => Raise OutsideModel end = Ok i /\
     ((exists fld l, has_field "INSTITUTE" section fld /\ i = Some l /\ institutes_shown e fld (Print.institutes_str l)) \/ (no_field "INSTITUTE" section /\ i = None))).
  { destruct (LOOK "INSTITUTE") as [(fld & f & HF & WF & NE & K & MF & ->)|(NO & ->)]; [discriminate| |eexists; split; [reflexivity|right; auto]].
    destruct (institute_field_shown c e D fld NE (well_institute _ _ WF K)) as (pf & l & E & SH).
    unfold make_field in MF. change (key_of (tx "INSTITUTE")) with (Some (lit "INSTITUTE")) in MF. cbn [tag_eqb] in MF.
    change (str_eqb (lit "INSTITUTE") (lit "REACTION")) with false in MF. change (str_eqb (lit "INSTITUTE") (lit "MONITOR")) with false in MF.
    change (str_eqb (lit "INSTITUTE") (lit "REFERENCE")) with false in MF. change (str_eqb (lit "INSTITUTE") (lit "AUTHOR")) with false in MF.
    change (str_eqb (lit "INSTITUTE") (lit "TITLE")) with false in MF. change (str_eqb (lit "INSTITUTE") (lit "INSTITUTE")) with true in MF. cbv iota in MF.
    rewrite E in MF. cbn [bind fst snd] in MF. assert (f = FInstitute pf l) by congruence. subst f. eexists. split; [reflexivity|]. left. exists fld, l. rewrite <- institutes_texts. auto. }
  assert (TI : exists t b', match bib_field b "TITLE" with
                  | None => Ok (lit "None", mkBib (dset tag_eqb (Some (lit "TITLE")) None (b_dict b)) (b_keys b))
                  | Some None => Ok (lit "None", b)
                  | Some (Some (FTitle f)) => Ok (title_str f, b)
                  | Some (Some _) => Raise OutsideModel
                  end = Ok (t, b') /\ ((exists fld, has_field "TITLE" section fld /\ title_shown fld t) \/ (no_field "TITLE" section /\ t = tx "None"))).
  { destruct (LOOK "TITLE") as [(fld & f & HF & WF & NE & K & MF & ->)|(NO & ->)]; [discriminate| |eexists _, _; split; [reflexivity|right; auto]].
    destruct (plain_field_total fld NE) as (pf & E).
    unfold make_field in MF. change (key_of (tx "TITLE")) with (Some (lit "TITLE")) in MF. cbn [tag_eqb] in MF.
    change (str_eqb (lit "TITLE") (lit "REACTION")) with false in MF. change (str_eqb (lit "TITLE") (lit "MONITOR")) with false in MF.
    change (str_eqb (lit "TITLE") (lit "REFERENCE")) with false in MF. change (str_eqb (lit "TITLE") (lit "AUTHOR")) with false in MF.
    change (str_eqb (lit "TITLE") (lit "TITLE")) with true in MF. cbv iota in MF.
    rewrite E in MF. cbn [bind fst snd] in MF. assert (f = FTitle pf) by congruence. subst f. eexists _, _. split; [reflexivity|]. left. exists fld. split; [exact HF|]. now apply title_field_shown. }
  assert (RE : exists r pt y, match bib_field b "REFERENCE" with
                                 | None => Ok (None, lit "None", lit "None")
                                 | Some (Some (FReference _ r)) => Ok (Some r, ref_pubtype r, ref_pubyear r)
                                 | Some _ => Raise AttributeError
                                 end = Ok (r, pt, y) /\
     ((exists fld x rf, has_field "REFERENCE" section fld /\ r = Some x /\ references_shown e fld (reference_str x) /\
                      first_reference fld rf /\ parseX4Year (digits_text (rt_date rf)) = Ok y /\ ref_date x = digits_text (rt_date rf)) \/
                   (no_field "REFERENCE" section /\ r = None /\ y = tx "None"))).
  { destruct (LOOK "REFERENCE") as [(fld & f & HF & WF & NE & K & MF & ->)|(NO & ->)]; [discriminate| |eexists _, _, _; split; [reflexivity|right; auto]].
    destruct (reference_field_shown c e D fld NE (well_reference _ _ WF K)) as (pf & x & rf & E & SH & FR & PY & DT).
    unfold make_field in MF. change (key_of (tx "REFERENCE")) with (Some (lit "REFERENCE")) in MF. cbn [tag_eqb] in MF.
    change (str_eqb (lit "REFERENCE") (lit "REACTION")) with false in MF. change (str_eqb (lit "REFERENCE") (lit "MONITOR")) with false in MF.
    change (str_eqb (lit "REFERENCE") (lit "REFERENCE")) with true in MF. cbv iota in MF.
    rewrite E in MF. cbn [bind fst snd] in MF. assert (f = FReference pf x) by congruence. subst f. eexists _, _, _. split; [reflexivity|]. left. exists fld, x, rf. auto 8. }
  destruct AU as (a & AU & A1). destruct IN as (i & IN & I1). destruct TI as (t & b' & TI & T1). destruct RE as (r & pt & y & RE & R1).
  exists (mkMeta a i t r pt y sub), b'. split; [|split; [reflexivity|constructor; assumption]].
  unfold X4BibMetaData. rewrite AU. cbn [bind]. rewrite IN. cbn [bind]. rewrite TI. cbn [bind]. rewrite RE. reflexivity.
Qed.

(** ** Several BIB sections *)

Definition header_of (m : bibmeta) : header :=
  mkHeader (author_items (bm_author m)) (bm_title m) (bm_year m) (meta_institute_str m) (meta_reference_str m) (option_map ref_date (bm_reference m)).

Lemma stating_one : forall kw s fld, stating kw [s] fld -> has_field kw s fld.
Proof. intros kw s fld (x & L & H). destruct (last_in _ _ _ _ L) as ([<-|[]] & _). exact H. Qed.
Lemma stating_two : forall kw s1 s2 fld, stating kw [s1; s2] fld -> has_field kw s2 fld \/ (no_field kw s2 /\ has_field kw s1 fld).
Proof.
  intros kw s1 s2 fld (x & (a & b & E & P & F) & H). destruct a as [|z1 [|z2 a]].
  - cbn [app] in E. injection E as <- <-. inversion F; subst. right. split; assumption.
  - cbn [app] in E. injection E as <- <- <-. now left.
  - exfalso. apply (f_equal (@length _)) in E. cbn [length app] in E. rewrite app_length in E. cbn [length] in E. lia.
Qed.
Lemma silent_one : forall kw s, silent kw [s] -> no_field kw s.
Proof. intros kw s S. inversion S; assumption. Qed.
Lemma silent_two : forall kw s1 s2, silent kw [s1; s2] -> no_field kw s1 /\ no_field kw s2.
Proof. intros kw s1 s2 S. inversion S as [|? ? A B]; subst. inversion B; subst. split; assumption. Qed.

Lemma told_one : forall e s m, meta_said e s m -> told e [s] (header_of m).
Proof.
  intros e s m [A T I R]. constructor; cbn [header_of h_authors h_title h_year h_institute h_reference h_date].
  - intros fld S. apply stating_one in S. destruct A as [(f & l & H & -> & N)|(NO & _)]; [|elim NO; eauto]. now rewrite (has_field_fun _ _ _ _ S H).
  - intro S. apply silent_one in S. destruct A as [(f & l & H & _)|(_ & ->)]; [elim S; eauto|reflexivity].
  - intros fld S. apply stating_one in S. destruct T as [(f & H & N)|(NO & _)]; [|elim NO; eauto]. exists (bm_title m). rewrite (has_field_fun _ _ _ _ S H). auto.
  - intro S. apply silent_one in S. destruct T as [(f & H & _)|(_ & ->)]; [elim S; eauto|reflexivity].
  - intros fld S. apply stating_one in S. unfold meta_institute_str. destruct I as [(f & l & H & -> & N)|(NO & _)]; [|elim NO; eauto]. now rewrite (has_field_fun _ _ _ _ S H).
  - intro S. apply silent_one in S. unfold meta_institute_str. destruct I as [(f & l & H & _)|(_ & ->)]; [elim S; eauto|reflexivity].
  - intros fld S. apply stating_one in S. unfold meta_reference_str. destruct R as [(f & x & r & H & -> & N & FR & Y & DT)|(NO & _)]; [|elim NO; eauto].
    rewrite (has_field_fun _ _ _ _ S H). split; [exact N|]. exists r. cbn [option_map]. rewrite DT. auto.
  - intro S. apply silent_one in S. unfold meta_reference_str. destruct R as [(f & x & r & H & _)|(_ & -> & ->)]; [elim S; eauto|auto].
Qed.

Lemma told_two : forall e s1 m1 s2 m2 m, meta_said e s1 m1 -> meta_said e s2 m2 ->
  bm_author m = or_default ANone (last_some (map author_slot [Some m1; Some m2])) ->
  bm_institute m = last_some (map (slot bm_institute) [Some m1; Some m2]) ->
  bm_title m = or_default (lit "None") (last_some (map (text_slot bm_title) [Some m1; Some m2])) ->
  bm_reference m = last_some (map (slot bm_reference) [Some m1; Some m2]) ->
  bm_year m = or_default (lit "None") (last_some (map (text_slot bm_year) [Some m1; Some m2])) ->
  told e [s1; s2] (header_of m).
Proof.
  intros e s1 m1 s2 m2 m [A1 T1 I1 R1] [A2 T2 I2 R2] A I T R Y. cbn [map last_some author_slot slot text_slot] in A, I, T, R, Y.
  change (list_ascii_of_string "None") with (tx "None") in *. change (lit "None") with (tx "None") in *.
  assert (YN : forall d y, parseX4Year d = Ok y -> (if list_eq_dec ascii_dec y (tx "None") then None else Some y) = Some y).
  { intros d y P. destruct (list_eq_dec ascii_dec y (tx "None")) as [Q|]; [elim (year_digits _ _ P Q)|reflexivity]. }
  assert (NN : (if list_eq_dec ascii_dec (tx "None") (tx "None") then @None (list ascii) else Some (tx "None")) = None).
  { destruct (list_eq_dec ascii_dec (tx "None") (tx "None")); [reflexivity|contradiction]. }
  constructor; cbn [header_of h_authors h_title h_year h_institute h_reference h_date].
  - intros fld S. apply stating_two in S. rewrite A. destruct S as [S|(NO & S)].
    + destruct A2 as [(f & l & H & -> & N)|(NO & _)]; [|elim NO; eauto]. rewrite (has_field_fun _ _ _ _ S H). exact N.
    + destruct A2 as [(f & l & H & _)|(_ & ->)]; [elim NO; eauto|]. destruct A1 as [(f & l & H & -> & N)|(NO' & _)]; [|elim NO'; eauto].
      rewrite (has_field_fun _ _ _ _ S H). exact N.
  - intro S. apply silent_two in S. destruct S as (N1 & N2). rewrite A. destruct A1 as [(f & l & H & _)|(_ & ->)]; [elim N1; eauto|].
    destruct A2 as [(f & l & H & _)|(_ & ->)]; [elim N2; eauto|]. reflexivity.
  - intros fld S. apply stating_two in S. rewrite T. destruct S as [S|(NO & S)].
    + destruct T2 as [(f & H & N)|(NO & _)]; [|elim NO; eauto]. exists (bm_title m2). rewrite (has_field_fun _ _ _ _ S H). split; [exact N|]. intro NE.
      destruct (list_eq_dec ascii_dec (bm_title m2) (tx "None")); [contradiction|reflexivity].
    + destruct T2 as [(f & H & _)|(_ & ->)]; [elim NO; eauto|]. rewrite NN. destruct T1 as [(f & H & N)|(NO' & _)]; [|elim NO'; eauto].
      exists (bm_title m1). rewrite (has_field_fun _ _ _ _ S H). split; [exact N|]. intro NE.
      destruct (list_eq_dec ascii_dec (bm_title m1) (tx "None")); [contradiction|reflexivity].
  - intro S. apply silent_two in S. destruct S as (N1 & N2). rewrite T. destruct T1 as [(f & H & _)|(_ & ->)]; [elim N1; eauto|].
    destruct T2 as [(f & H & _)|(_ & ->)]; [elim N2; eauto|]. rewrite NN. reflexivity.
  - intros fld S. apply stating_two in S. unfold meta_institute_str. rewrite I. destruct S as [S|(NO & S)].
    + destruct I2 as [(f & l & H & -> & N)|(NO & _)]; [|elim NO; eauto]. rewrite (has_field_fun _ _ _ _ S H). exact N.
    + destruct I2 as [(f & l & H & _)|(_ & ->)]; [elim NO; eauto|]. destruct I1 as [(f & l & H & -> & N)|(NO' & _)]; [|elim NO'; eauto].
      rewrite (has_field_fun _ _ _ _ S H). exact N.
  - intro S. apply silent_two in S. destruct S as (N1 & N2). unfold meta_institute_str. rewrite I. destruct I1 as [(f & l & H & _)|(_ & ->)]; [elim N1; eauto|].
    destruct I2 as [(f & l & H & _)|(_ & ->)]; [elim N2; eauto|]. reflexivity.
  - intros fld S. apply stating_two in S. unfold meta_reference_str. rewrite R, Y. destruct S as [S|(NO & S)].
    + destruct R2 as [(f & x & r & H & -> & N & FR & PY & DT)|(NO & _)]; [|elim NO; eauto]. rewrite (has_field_fun _ _ _ _ S H), (YN _ _ PY). split; [exact N|].
      exists r. cbn [option_map or_default]. rewrite DT. auto.
    + destruct R2 as [(f & x & r & H & _)|(_ & -> & ->)]; [elim NO; eauto|]. destruct R1 as [(f & x & r & H & -> & N & FR & PY & DT)|(NO' & _)]; [|elim NO'; eauto].
      rewrite (has_field_fun _ _ _ _ S H), NN, (YN _ _ PY). split; [exact N|]. exists r. cbn [option_map or_default]. rewrite DT. auto.
  - intro S. apply silent_two in S. destruct S as (N1 & N2). unfold meta_reference_str. rewrite R, Y. destruct R1 as [(f & x & r & H & _)|(_ & -> & ->)]; [elim N1; eauto|].
    destruct R2 as [(f & x & r & H & _)|(_ & -> & ->)]; [elim N2; eauto|]. rewrite NN. auto.
Qed.

(** ** Texts *)

Lemma header_is : forall m, xmgraceHeader m = header_text (header_of m) (bm_subent m).
Proof. intro m. unfold xmgraceHeader, header_text, meta_lines. rewrite !between_join. reflexivity. Qed.
Lemma cited_is : forall a, author_string a = cited (author_items a).
Proof.
  intro a. unfold author_string, cited. destruct (author_items a) as [|x [|y [|z l]]]; cbn [length]; try (now rewrite between_join).
  cbn [firstn]. change (2 <? S (S (S (length l)))) with true. cbv iota. cbn [join]. rewrite <- ?app_assoc. reflexivity.
Qed.
Lemma legend_is : forall m, meta_legend m = legend_text (header_of m).
Proof. intro m. unfold meta_legend, legend_text. rewrite cited_is. reflexivity. Qed.
Lemma citation_is : forall m, (h_date (header_of m) = None -> meta_citation m = Raise AttributeError) /\
  (forall date, h_date (header_of m) = Some date -> meta_citation m = Ok (citation_text (header_of m) (bm_subent m) date)).
Proof.
  intro m. unfold meta_citation, citation_text. cbn [header_of h_date h_authors h_reference]. rewrite cited_is. destruct (bm_reference m) as [r|]; cbn [option_map bind]; split; intros; try discriminate; [|reflexivity].
  assert (ref_date r = date) as -> by congruence. rewrite <- ?app_assoc. reflexivity.
Qed.

(** ** Subentries *)

Lemma sub_said : forall c e, well_dictionaries c e -> forall num text s b, well_subentry c text -> X4SubEntry e text = Ok s -> s_accnum s = Some num ->
  has_section "BIB" text b -> exists bb, bib_of s = Some bb /\ filled_bib bb /\ forall sub, exists m b', X4BibMetaData bb sub = Ok (m, b') /\ bm_subent m = sub /\ meta_said e b m.
Proof.
  intros c e D num text s b W E A HB. pose proof (well_named c _ W) as SN. destruct (sub_bib e text s b E SN HB) as (bb & EB & BO). exists bb. split; [exact BO|].
  split; [exact (bib_filled _ _ _ EB)|]. intro sub. apply (bib_said c e D b bb sub); [|exact EB].
  destruct W as (_ & lines & bs & L & S & WS). destruct HB as (lines' & bs' & L' & S' & LA).
  assert (bs' = bs). { apply lines_split in L, L'. apply sections_chunkify in S, S'. congruence. }
  subst bs'. destruct (last_in _ _ _ _ LA) as (Ib & Kb). rewrite Forall_forall in WS. destruct (WS _ Ib) as [(_ & Q)|([Q|Q] & _)]; [exact Q| |];
    exfalso; pose proof (field_keyword_fun _ _ _ Kb Q) as Z; discriminate Z.
Qed.
Lemma sub_meta : forall c e, well_dictionaries c e -> forall num text s, well_subentry c text -> X4SubEntry e text = Ok s -> s_accnum s = Some num ->
  (exists b m, has_section "BIB" text b /\ metadata_of s = Some m /\ bm_subent m = num /\ meta_said e b m) \/
  ((~ exists b, has_section "BIB" text b) /\ metadata_of s = None).
Proof.
  intros c e D num text s W E A. pose proof (well_named c _ W) as SN.
  assert (W' := W). destruct W' as (_ & lines & bs & L & S & WS). destruct (last_or_none _ (field_keyword (tx "BIB")) bs (keyword_dec (tx "BIB"))) as [NO|(b & LA)].
  - right. split.
    + intros (b & lines' & bs' & L' & S' & LA). assert (bs' = bs). { apply lines_split in L, L'. apply sections_chunkify in S, S'. congruence. } subst bs'.
      destruct (last_in _ _ _ _ LA) as (I & K). rewrite Forall_forall in NO. exact (NO _ I K).
    + assert (X : sub_section s "BIB" = None) by (apply (sub_none e text s "BIB" E SN); exists lines, bs; auto).
      unfold metadata_of, bib_of. unfold sub_section, lit in X. rewrite X. reflexivity.
  - left. assert (HB : has_section "BIB" text b) by (exists lines, bs; auto).
    destruct (sub_said c e D num text s b W E A HB) as (bb & BO & _ & M). destruct (M num) as (m & b' & X & SU & MS).
    exists b, m. split; [exact HB|]. unfold metadata_of. rewrite BO, A, X. auto.
Qed.

(** ** Entries *)

Lemma replace_none : forall a b s, ~ mentions s a -> replace_str a b s = s.
Proof.
  intros a b s N. unfold replace_str, split_str. rewrite MonitorLemmas.split_none by (now apply MonitorLemmas.not_contains). reflexivity.
Qed.

Lemma entry_told : forall c e, well_dictionaries c e -> forall acc raw, well_entry c acc raw ->
  exists n nums m n' text b h, X4Entry e raw = Ok n /\ X4EntryMetaData n = Ok ((acc, false, map Some nums, m), n') /\
    StronglySorted str_lt nums /\ (forall num, In num nums <-> exists text, In text raw /\ numbered num text) /\
    last_such (numbered (acc ++ tx "001")) raw text /\ has_section "BIB" text b /\ told e [b] h /\
    entry_xmgraceHeader acc false m = tx "#Exfor Entry " ++ acc ++ ascii_of_N 10 :: header_text h (acc ++ tx "001") /\
    entry_legend acc false m = legend_text h /\
    (h_date h = None -> entry_citation acc false m = Raise AttributeError) /\
    (forall date, h_date h = Some date -> let t := citation_text h (acc ++ tx "001") date in
       ~ mentions t (tx "?????.???") -> entry_citation acc false m = Ok t).
Proof.
  intros c e D acc raw W. destruct (entry_total c e D acc raw W) as (n & s0 & b0 & E & A & _).
  destruct (entry_sorted c e acc raw n W E) as (nums & SK & SS & IN & _).
  assert (W' := W). destruct W' as [_ WS (text & b & LA & HB)]. destruct (entry_last _ _ _ _ _ E LA) as (s & S & AN & _ & G).
  assert (WT : well_subentry c text) by (destruct (last_in _ _ _ _ LA) as (I & _); rewrite Forall_forall in WS; now apply WS).
  destruct (sub_said c e D _ text s b WT S AN HB) as (bb & BO & FB & M). destruct (M (acc ++ tx "001")) as (m & b' & X & SU & MS).
  assert (SB : Entry.sub_bib s = Ok bb). { unfold Entry.sub_bib. unfold bib_of in BO. change (lit "BIB") with (list_ascii_of_string "BIB"). destruct (dget str_eqb (list_ascii_of_string "BIB") (s_dict s)) as [[]|]; congruence. }
  assert (GI : entry_getitem n (EInt 1) = Ok s). { rewrite getitem_one, A. change (lit "001") with (tx "001"). rewrite G. reflexivity. }
  assert (DL : deleted n = Ok false).
  { destruct (deleted n) as [[]|x] eqn:Q; [elim (never_deleted n Q)|reflexivity|]. exfalso. unfold deleted in Q. rewrite GI in Q. cbn [bind] in Q. rewrite SB in Q. cbn [bind] in Q.
    unfold bib_field in Q. destruct (dget tag_eqb (Some (lit "HISTORY")) (b_dict bb)) as [[f|]|] eqn:H; try discriminate Q.
    apply (StrLemmas.dget_In _ tag_eqb_eq) in H. destruct (proj2 FB _ _ H) as (f & Z). discriminate Z. }
  pose proof (told_one _ _ _ MS) as T.
  eexists n, nums, m, _, text, b, (header_of m). split; [exact E|]. split.
  { unfold X4EntryMetaData. rewrite DL. cbn [bind]. rewrite SK. cbn [bind]. rewrite GI. cbn [bind]. rewrite SB. cbn [bind]. rewrite A. change (lit "001") with (tx "001"). rewrite X. cbn [bind]. reflexivity. }
  split; [exact SS|]. split; [exact IN|]. split; [exact LA|]. split; [exact HB|]. split; [exact T|]. split; [|split; [|split]].
  - unfold entry_xmgraceHeader. rewrite header_is, SU. reflexivity.
  - unfold entry_legend. apply legend_is.
  - intro Q. unfold entry_citation. rewrite (proj1 (citation_is m) Q). reflexivity.
  - intros date Q t N. unfold entry_citation. rewrite (proj2 (citation_is m) date Q), SU. cbn [bind]. change (lit "?????.???") with (tx "?????.???"). now rewrite replace_none.
Qed.

(** ** Data sets *)

Lemma lines_are : forall nm d t, strHeader nm d = Ok t -> exists u, set_lines nm d u /\ t = xmgraceHeader (ds_meta d) ++ ascii_of_N 10 :: u.
Proof.
  intros nm d t H. unfold strHeader in H. apply bind_ok in H. destruct H as (out & O & H). unfold X4DataSet_strHeader in O.
  destruct (ds_reaction d) as [[m rest]|] eqn:R; [|discriminate O]. apply bind_ok in O. destruct O as (r & Q & O). apply bind_ok in Q. destruct Q as (s & S & Q).
  assert (r = s ++ [sp] ++ tree_str rest) by congruence. subst r. clear Q. apply bind_ok in O. destruct O as (ms & M & O).
  assert (E : out = xmgraceHeader (ds_meta d) ++ [nl] ++ lit "#  Reaction:  " ++ (s ++ [sp] ++ tree_str rest) ++ ms) by congruence. clear O.
  set (fr := match ds_class_of d, ds_frame d with (AngularDist | EnergyDist), Some f => ascii_of_N 10 :: tx "#  Frame:     " ++ f | _, _ => [] end).
  assert (T : t = out ++ fr).
  { unfold fr. destruct (ds_class_of d); try (rewrite app_nil_r; congruence); destruct (ds_frame d) as [f|]; try discriminate H; cbn [of_option bind] in H;
      assert (t = out ++ [nl] ++ lit "#  Frame:     " ++ f) as -> by congruence; reflexivity. }
  exists (tx "#  Reaction:  " ++ s ++ tx " " ++ tree_str rest ++ ms ++ fr). split.
  - exists m, rest, s, ms. split; [exact R|]. split; [exact S|]. split; [intro Z; rewrite Z in M; congruence|]. split; [|reflexivity].
    intros l Z. rewrite Z in M. apply bind_ok in M. destruct M as (xs & X & M). exists xs. split; [now apply map_res_Forall2|]. rewrite <- between_join.
    assert (ms = [nl] ++ lit "#  Monitor(s): " ++ join [sp] xs) as -> by congruence. reflexivity.
  - rewrite T, E, <- ?app_assoc. reflexivity.
Qed.
Lemma sets_told : forall nm d t, strHeader nm d = Ok t -> set_told nm d (header_of (ds_meta d)) (bm_subent (ds_meta d)).
Proof.
  intros nm d t H. destruct (lines_are _ _ _ H) as (u & L & E). split; [apply legend_is|]. split; [apply (proj1 (citation_is _))|]. split; [apply (proj2 (citation_is _))|].
  exists u. split; [exact L|]. rewrite H, E, header_is. reflexivity.
Qed.

Lemma meta_told : forall c e, well_dictionaries c e -> forall nm, naming c e nm -> forall acc raw n errs ds errs' n' k d, well_entry c acc raw ->
  (forall num text, In text raw -> numbered num text -> length num = 8) -> X4Entry e raw = Ok n ->
  getDataSets nm n errs = Ok (ds, errs', n') -> dget key_eqb k ds = Some d ->
  exists num p text text1 b1 h, k = (acc, Some num, p) /\ last_such (numbered num) raw text /\ last_such (numbered (acc ++ tx "001")) raw text1 /\ has_section "BIB" text1 b1 /\
    ((exists b, has_section "BIB" text b /\ told e [b1; b] h /\ h = header_of (ds_meta d) /\ bm_subent (ds_meta d) = num) \/
     ((~ exists b, has_section "BIB" text b) /\ told e [b1] h /\ h = header_of (ds_meta d) /\ bm_subent (ds_meta d) = acc ++ tx "001")).
Proof.
  intros c e D nm NM acc raw n errs ds errs' n' [[a sub] p] d W L8 E G DG.
  destruct (entry_total c e D acc raw W) as (n0 & z0 & b0 & E0 & A & _). assert (n0 = n) by congruence. subst n0. clear E0 z0 b0.
  destruct (entry_sorted c e acc raw n W E) as (nums & _ & _ & IN & KS & KEY).
  assert (W' := W). destruct W' as [_ WS (text1 & b1 & LA1 & HB1)]. destruct (entry_last _ _ _ _ _ E LA1) as (s1 & S1 & AN1 & J1 & G1).
  assert (WT : forall num t, last_such (numbered num) raw t -> well_subentry c t) by (intros num t L; destruct (last_in _ _ _ _ L) as (I & _); rewrite Forall_forall in WS; now apply WS).
  destruct (dataSets_values _ _ _ _ _ _ _ _ E G) as (s1' & J1' & V & O).
  assert (s1' = s1) as -> by (unfold one in J1'; rewrite A in J1'; exact (entry_same _ _ _ _ _ _ E G1 J1')). clear J1'.
  assert (AA : a = acc /\ In sub (dkeys (n_subs n))).
  { destruct (str_eqb a acc) eqn:Q1.
    - apply str_eqb_eq in Q1. split; [exact Q1|]. destruct (dget tag_eqb sub (n_subs n)) as [s|] eqn:Q2; [apply (dget_Some_keys _ tag_eqb_eq); eauto|].
      apply (dget_None _ tag_eqb_eq) in Q2. destruct (O a sub p (or_intror Q2)) as (Z & _). congruence.
    - destruct (O a sub p) as (Z & _); [left; intros ->; rewrite A, str_eqb_refl in Q1; discriminate Q1|congruence]. }
  destruct AA as (-> & IS).
  destruct (KS _ IS) as (num & -> & INN).
  destruct (KEY num INN) as (text & s & LA & WTX & S & GG).
  assert (AN : s_accnum s = Some num) by (destruct (last_in _ _ _ _ LA) as (_ & NU); now apply (numbered_accnum e text s num S)).
  pose proof (StrLemmas.dget_In _ tag_eqb_eq _ _ _ GG) as IG. destruct (V (Some num) s p IG) as (V1 & _). rewrite A in V1. rewrite DG in V1. symmetry in V1. clear V O.
  assert (TR : exists from, tried nm n s1 s from p = Some (Ok d)).
  { apply last_some_in in V1. assert (Q : forall x, ok_of x = Some d -> x = Some (Ok d)) by (intros [[y|y]|] Y; try discriminate; cbn in Y; congruence).
    destruct V1 as [V1|[V1|[]]]; apply Q in V1; eauto. }
  destruct TR as (from & TR). unfold tried in TR. destruct (sub_data s "DATA") as [data|]; [|discriminate TR]. destruct (dget Ascii.eqb p (reactions_of from)) as [r|]; [|discriminate TR].
  assert (TR' : forall x, Some x = Some (Ok d) -> x = Ok d) by (intros; congruence). apply TR' in TR. clear TR'.
  destruct (factory_meta _ _ _ _ _ _ _ _ _ TR) as (F1 & F2 & F3 & F4 & _ & F6 & F7). clear TR.
  assert (NN : forall x, length x = 8 -> (if list_eq_dec ascii_dec x (list_ascii_of_string "None") then None else Some x) = Some x).
  { intros x L. destruct (list_eq_dec ascii_dec x (list_ascii_of_string "None")) as [->|]; [discriminate L|reflexivity]. }
  destruct (sub_meta c e D _ text1 s1 (WT _ _ LA1) S1 AN1) as [(b1' & m1 & HB1' & M1 & SU1 & MS1)|(NO & _)]; [|elim NO; eauto].
  rewrite (has_section_fun _ _ _ _ HB1' HB1) in MS1. clear HB1'.
  exists num, p, text, text1, b1, (header_of (ds_meta d)). split; [reflexivity|]. split; [exact LA|]. split; [exact LA1|]. split; [exact HB1|].
  destruct (sub_meta c e D _ text s (WT _ _ LA) S AN) as [(b & m2 & HB & M2 & SU2 & MS2)|(NO & M2)]; rewrite M1, M2 in *.
  - left. exists b. split; [exact HB|]. split; [exact (told_two e b1 m1 b m2 (ds_meta d) MS1 MS2 F1 F2 F3 F4 F6)|]. split; [reflexivity|].
    rewrite F7. cbn [map last_some text_slot]. rewrite SU2, NN; [reflexivity|]. destruct (last_in _ _ _ _ LA) as (I & NU). exact (L8 _ _ I NU).
  - right. split; [exact NO|]. split.
    + assert (X : header_of (ds_meta d) = header_of m1).
      { unfold header_of, meta_institute_str, meta_reference_str. rewrite F1, F2, F3, F4, F6. cbn [map last_some author_slot slot text_slot].
        assert (Q : forall x, or_default (lit "None") (if list_eq_dec ascii_dec x (list_ascii_of_string "None") then None else Some x) = x).
        { intro x. destruct (list_eq_dec ascii_dec x (list_ascii_of_string "None")) as [->|]; reflexivity. }
        rewrite !Q. destruct (bm_author m1); reflexivity. }
      rewrite X. now apply told_one.
    + split; [reflexivity|]. rewrite F7. cbn [map last_some text_slot]. rewrite SU1, NN; [reflexivity|]. destruct (last_in _ _ _ _ LA1) as (I & NU). exact (L8 _ _ I NU).
Qed.

Lemma data_sets_told : forall c e, well_dictionaries c e -> forall nm, naming c e nm -> forall acc raw errs, well_entry c acc raw ->
  (forall num text, In text raw -> numbered num text -> length num = 8) ->
  exists n ds errs' n', X4Entry e raw = Ok n /\ getDataSets nm n errs = Ok (ds, errs', n') /\ forall k d, dget key_eqb k ds = Some d -> told_set e nm acc raw k d.
Proof.
  intros c e D nm NM acc raw errs W L8. destruct (well_printed c e D nm NM acc raw errs W) as (n & ds & errs' & n' & E & _ & G & P).
  exists n, ds, errs', n'. split; [exact E|]. split; [exact G|]. intros k d DG. destruct (P k d DG) as ((t & T) & _). unfold dataset_str in T. apply bind_ok in T. destruct T as (hd & H & _).
  destruct (meta_told c e D nm NM acc raw n errs ds errs' n' k d W L8 E G DG) as (num & p & text & text1 & b1 & h & K & L & L1 & B1 & [(b & HB & TO & -> & SU)|(NO & TO & -> & SU)]);
    pose proof (sets_told _ _ _ H) as ST; rewrite SU in ST; exists num, p, text, text1, b1, (header_of (ds_meta d)); repeat (split; [assumption|]); [left|right]; eauto.
Qed.
Lemma simplified_meta : forall acos mk fl d s d', fst (Columns.run (getSimplified acos mk fl d) s) = Ok d' -> ds_meta d' = ds_meta d.
Proof.
  intros acos mk fl d s d' H. rewrite SimplifyLemmas.run_getSimplified in H. unfold SimplifyLemmas.simplified in H.
  assert (Q : forall pm names, SimplifyLemmas.simplified_with acos pm names mk fl d = Ok d' -> ds_meta d' = ds_meta d).
  { clear H. intros pm names E. unfold SimplifyLemmas.simplified_with in E. destruct (ds_simplified d); [assert (d' = d) as -> by congruence; reflexivity|].
    destruct pm as [pm|]; [|assert (d' = d) as -> by congruence; reflexivity]. destruct (existsb _ _); [discriminate|].
    apply bind_ok in E. destruct E as (cols & C & E). apply bind_ok in E. destruct E as (t & T & E). assert (d' = set_table d t true) by congruence. subst d'. reflexivity. }
  destruct (ds_class_of d) eqn:CL; try discriminate H; try (eapply Q; exact H). assert (d' = d) as -> by congruence. reflexivity.
Qed.
Lemma simplified_told : forall c e, well_dictionaries c e -> forall nm, naming c e nm -> forall acos mk acc raw n errs s ds errs' n' s' k d, well_entry c acc raw ->
  (forall num text, In text raw -> numbered num text -> length num = 8) -> X4Entry e raw = Ok n ->
  getSimplifiedDataSets nm acos mk n errs s = Ok (ds, errs', n', s') -> dget key_eqb k ds = Some d -> told_set e nm acc raw k d.
Proof.
  intros c e D nm NM acos mk acc raw n errs s ds errs' n' s' k d W L8 E G DG.
  destruct (well_simplified_printed c e D nm NM acc raw n acos mk errs s ds errs' n' s' k d W E G DG) as ((t & T) & _). unfold dataset_str in T. apply bind_ok in T. destruct T as (hd & H & _).
  destruct (simplified_from e raw n nm acos mk errs s ds errs' n' s' E G) as (ds0 & errs0 & G0 & A). destruct (A k d DG) as (d0 & D0 & B).
  assert (M : ds_meta d = ds_meta d0) by (destruct B as [->|(fl & s0 & R)]; [reflexivity|exact (simplified_meta _ _ _ _ _ _ R)]).
  destruct (meta_told c e D nm NM acc raw n errs ds0 errs0 n' k d0 W L8 E G0 D0) as (num & p & text & text1 & b1 & h & K & L & L1 & B1 & [(b & HB & TO & -> & SU)|(NO & TO & -> & SU)]);
    pose proof (sets_told _ _ _ H) as ST; rewrite M, SU in ST; exists num, p, text, text1, b1, (header_of (ds_meta d0)); repeat (split; [assumption|]); [left|right]; eauto.
Qed.
