(** Lemmas about BIB sections. *)
From Coq Require Import String List Ascii NArith ZArith Bool Arith Lia Permutation.
From Verif.Model Require Import Py Dicts Particle Reaction Field Section.
From Verif.Spec Require Import Text Exfor.
From Verif.Proofs Require Import StrLemmas NumLemmas IntLemmas DictLemmas ReactionLemmas FieldLemmas.
Import ListNotations.
Local Open Scope list_scope.
Local Open Scope nat_scope.

Lemma tag_eqb_eq : forall a b, tag_eqb a b = true <-> a = b.
Proof.
  intros [a|] [b|]; cbn; split; intro H; try discriminate; auto.
  - apply str_eqb_eq in H. now subst.
  - injection H as ->. apply str_eqb_refl.
Qed.

(** ** chunkify *)

Definition is_frame (line : str) : bool := smem (strip (slice line 0 10)) [lit "BIB"; lit "ENDBIB"].

Lemma is_frame_iff : forall l, is_frame l = true <-> frame_line l.
Proof.
  intro l. unfold is_frame, frame_line, has_keyword. rewrite smem_In. cbn [In].
  rewrite <- !strip_iff. unfold lit, slice, columns. intuition.
Qed.

Lemma continuation_iff : forall l, str_eqb (strip (slice l 0 10)) [] = true <-> continuation l.
Proof. intro l. rewrite str_eqb_eq, strip_blank. reflexivity. Qed.

Lemma fold_bib_filter : forall lines st,
  fold_left bib_step lines st = fold_left bib_step (filter (fun l => negb (is_frame l)) lines) st.
Proof.
  induction lines as [|l ls IH]; intros [[sec first] fld]; auto. cbn [fold_left filter].
  destruct (is_frame l) eqn:E; cbn [negb].
  - unfold bib_step at 2. unfold is_frame in E. rewrite E. apply IH.
  - cbn [fold_left]. apply IH.
Qed.

Lemma filter_omits : forall lines, omits frame_line lines (filter (fun l => negb (is_frame l)) lines).
Proof.
  induction lines as [|l ls IH]; cbn [filter]; [constructor|].
  destruct (is_frame l) eqn:E; cbn [negb].
  - apply omits_skip; auto. now apply is_frame_iff.
  - apply omits_keep; auto. rewrite <- is_frame_iff. congruence.
Qed.

Lemma omits_filter : forall lines k, omits frame_line lines k -> k = filter (fun l => negb (is_frame l)) lines.
Proof.
  induction 1 as [|x l k H O IH|x l k H O IH]; cbn [filter]; auto.
  - apply is_frame_iff in H. now rewrite H.
  - rewrite <- is_frame_iff in H. destruct (is_frame x); [congruence|]. cbn [negb]. now f_equal.
Qed.

Lemma fold_bib_groups : forall ls sec fld, Forall (fun l => is_frame l = false) ls ->
  exists sec' fld' conts kf, fold_left bib_step ls (sec, false, fld) = (sec', false, fld') /\
    sec' ++ [fld'] = sec ++ (fld ++ conts) :: kf /\ ls = conts ++ concat kf /\
    Forall continuation conts /\ Forall keyword_field kf.
Proof.
  induction ls as [|l ls IH]; intros sec fld F.
  - exists sec, fld, [], []. rewrite app_nil_r. repeat split; auto.
  - inversion F as [|? ? F1 F2]; subst. cbn [fold_left]. unfold bib_step at 2.
    change (smem (strip (slice l 0 10)) [lit "BIB"; lit "ENDBIB"]) with (is_frame l). rewrite F1.
    destruct (str_eqb (strip (slice l 0 10)) []) eqn:E; cbn [negb].
    + destruct (IH sec (fld ++ [l]) F2) as (sec' & fld' & conts & kf & A & B & C & D & G).
      exists sec', fld', (l :: conts), kf. rewrite <- app_assoc in B. repeat split; auto.
      * cbn. now rewrite <- C.
      * constructor; auto. now apply continuation_iff.
    + destruct (IH (sec ++ [fld]) [l] F2) as (sec' & fld' & conts & kf & A & B & C & D & G).
      exists sec', fld', [], ((l :: conts) :: kf). rewrite <- app_assoc in B. repeat split; auto.
      * now rewrite app_nil_r.
      * cbn. now rewrite C.
      * constructor; auto. exists l, conts. repeat split; auto.
        rewrite <- continuation_iff. congruence.
Qed.

Lemma filter_noframe : forall lines, Forall (fun l => is_frame l = false) (filter (fun l => negb (is_frame l)) lines).
Proof.
  intro lines. apply Forall_forall. intros l H. apply filter_In in H. destruct H as [_ H].
  now apply negb_true_iff in H.
Qed.

Lemma bib_chunkify_spec : forall lines, exists first rest kept,
  bib_chunkify lines = first :: rest /\ omits frame_line lines kept /\ concat (first :: rest) = kept /\
  (kept = [] -> first = [] /\ rest = []) /\ (kept <> [] -> one_field first) /\ Forall keyword_field rest.
Proof.
  intro lines. unfold bib_chunkify. rewrite fold_bib_filter.
  assert (O := filter_omits lines). assert (F := filter_noframe lines).
  destruct (filter _ lines) as [|l ls].
  - exists [], [], []. repeat split; auto; try contradiction.
  - inversion F as [|? ? F1 F2]; subst. cbn [fold_left]. unfold bib_step at 2.
    change (smem (strip (slice l 0 10)) [lit "BIB"; lit "ENDBIB"]) with (is_frame l). rewrite F1. cbn [app].
    destruct (fold_bib_groups ls [] [l] F2) as (sec' & fld' & conts & kf & A & B & C & D & G).
    rewrite A. exists (l :: conts), kf, (l :: ls). repeat split; auto; try discriminate.
    + cbn. now rewrite C.
    + intros _. exists l, conts. auto.
Qed.

(** Uniqueness: a list of fields is cut back into those fields. *)
Lemma keyword_fields_unique : forall a b : list (list str), Forall keyword_field a -> Forall keyword_field b ->
  forall ca cb, Forall continuation ca -> Forall continuation cb ->
  ca ++ concat a = cb ++ concat b -> ca = cb /\ a = b.
Proof.
  induction a as [|x a IH]; intros b Fa Fb ca cb Ca Cb E.
  - cbn in E. rewrite app_nil_r in E. destruct b as [|y b].
    + cbn in E. rewrite app_nil_r in E. auto.
    + exfalso. apply Forall_inv in Fb. destruct Fb as (l & ls & -> & N & _). cbn in E. subst ca.
      apply N. rewrite Forall_forall in Ca. apply Ca. apply in_or_app. right. now left.
  - inversion Fa as [|? ? (l & ls & -> & N & Cl) Fa']; subst. destruct b as [|y b].
    + exfalso. cbn in E. rewrite app_nil_r in E. subst cb.
      apply N. rewrite Forall_forall in Cb. apply Cb. apply in_or_app. right. now left.
    + inversion Fb as [|? ? (m & ms & -> & N' & Cm) Fb']; subst. cbn [concat app] in E.
      assert (K : ca = cb /\ l = m /\ ls ++ concat a = ms ++ concat b).
      { clear - E Ca Cb N N'. revert cb Cb E. induction Ca as [|c ca Hc Ca IHc]; intros [|d cb] Cb E; cbn in E.
        - injection E as -> E. auto.
        - injection E as -> E. inversion Cb; contradiction.
        - injection E as -> E. contradiction.
        - injection E as -> E. inversion Cb; subst. destruct (IHc cb) as (-> & -> & ?); auto. }
      destruct K as (-> & -> & K). destruct (IH b Fa' Fb' ls ms Cl Cm K) as [-> ->]. auto.
Qed.

Lemma bib_chunkify_fields : forall lines first rest, one_field first -> Forall keyword_field rest ->
  omits frame_line lines (concat (first :: rest)) -> bib_chunkify lines = first :: rest.
Proof.
  intros lines first rest O K M. destruct (bib_chunkify_spec lines) as (f & r & kept & E & M' & C & _ & O' & K').
  rewrite E. apply omits_filter in M. apply omits_filter in M'.
  assert (CC : concat (f :: r) = concat (first :: rest)) by congruence.
  destruct O as (l & ls & -> & Cl). destruct O' as (m & ms & -> & Cm).
  { rewrite M', <- M. discriminate. }
  cbn [concat app] in CC. injection CC as -> CC.
  destruct (keyword_fields_unique r rest K' K ms ls Cm Cl CC) as [-> ->]. reflexivity.
Qed.

(** ** Keywords *)

Lemma field_type_spec : forall kw fld, field_keyword kw fld -> extractX4FieldType fld = Ok (key_of kw).
Proof.
  intros kw fld (l & ls & -> & H). unfold extractX4FieldType. cbn [idx nth_error of_option bind].
  apply strip_iff in H. change (columns 0 10 l) with (slice l 0 10) in H. rewrite H. now destruct kw.
Qed.
Lemma field_type_ok : forall fld k, extractX4FieldType fld = Ok k -> exists kw, k = key_of kw /\ field_keyword kw fld.
Proof.
  intros [|l ls] k H; [discriminate|]. unfold extractX4FieldType in H. cbn [idx nth_error of_option bind] in H.
  exists (strip (slice l 0 10)). split.
  - destruct (strip (slice l 0 10)); cbn; congruence.
  - exists l, ls. split; auto. apply strip_trimmed.
Qed.
Lemma key_of_inj : forall a b, key_of a = key_of b -> a = b.
Proof. intros [|x a] [|y b] H; cbn in H; congruence. Qed.
Lemma field_keyword_fun : forall a b fld, field_keyword a fld -> field_keyword b fld -> a = b.
Proof.
  intros a b fld A B. apply field_type_spec in A. apply field_type_spec in B. rewrite A in B.
  injection B as B. now apply key_of_inj.
Qed.

Definition bib_add (e : env) (b : bib) (field : list str) : res bib :=
  ftag <- extractX4FieldType field ;;
  f <- make_field e ftag field ;;
  Ok (mkBib (dset tag_eqb ftag (Some f) (b_dict b)) (b_keys b ++ [ftag])).

Lemma bib_add_ok : forall e b fld b', bib_add e b fld = Ok b' ->
  exists kw f, field_keyword kw fld /\ make_field e (key_of kw) fld = Ok f /\
    b' = mkBib (dset tag_eqb (key_of kw) (Some f) (b_dict b)) (b_keys b ++ [key_of kw]).
Proof.
  intros e b fld b' H. unfold bib_add in H. apply bind_ok in H. destruct H as (k & K & H).
  apply bind_ok in H. destruct H as (f & F & H). injection H as <-.
  apply field_type_ok in K. destruct K as (kw & -> & K). exists kw, f. auto.
Qed.

Lemma fold_bib_spec : forall e flds b b', fold_res (bib_add e) flds b = Ok b' ->
  (exists kws, Forall2 field_keyword kws flds /\ b_keys b' = b_keys b ++ map key_of kws) /\
  (Forall (fun fld => exists kw f, field_keyword kw fld /\ make_field e (key_of kw) fld = Ok f) flds) /\
  (forall kw x, dget tag_eqb (key_of kw) (b_dict b') = Some x <->
     (exists fld f, last_such (field_keyword kw) flds fld /\ make_field e (key_of kw) fld = Ok f /\ x = Some f)
     \/ (Forall (fun fld => ~ field_keyword kw fld) flds /\ dget tag_eqb (key_of kw) (b_dict b) = Some x)) /\
  (forall k, In k (dkeys (b_dict b')) <-> In k (dkeys (b_dict b)) \/ exists kw fld, k = key_of kw /\ In fld flds /\ field_keyword kw fld).
Proof.
  intros e flds. induction flds as [|fld flds IH]; intros b b' H.
  - injection H as <-. repeat split.
    + exists []. split; [constructor|]. now rewrite app_nil_r.
    + constructor.
    + auto.
    + intros [(fld & f & (a & c & E & _) & _)|[_ H]]; auto. destruct a; discriminate.
    + auto.
    + intros [H|(kw & fld & _ & [] & _)]; auto.
  - cbn [fold_res] in H. apply bind_ok in H. destruct H as (b1 & A & H). apply bib_add_ok in A.
    destruct A as (kw0 & f0 & K0 & M0 & ->). apply IH in H. cbn [b_keys b_dict] in H.
    destruct H as ((kws & F2 & KS) & FM & G & IK). repeat split.
    + exists (kw0 :: kws). split; [constructor; auto|]. rewrite KS. cbn. now rewrite <- app_assoc.
    + constructor; eauto.
    + intro H. apply G in H. destruct H as [(fl & f & (a & c & E & P1 & P2) & M & X)|[N H]].
      * left. exists fl, f. split; auto. exists (fld :: a), c. rewrite E. auto.
      * rewrite (dget_dset _ _ tag_eqb tag_eqb_eq) in H. destruct (tag_eqb (key_of kw) (key_of kw0)) eqn:E.
        -- apply tag_eqb_eq, key_of_inj in E. subst kw0. injection H as <-.
           left. exists fld, f0. split; [exists [], flds; auto|auto].
        -- right. split; auto. constructor; auto. intro K.
           rewrite (field_keyword_fun kw kw0 fld K K0) in E.
           rewrite (proj2 (tag_eqb_eq _ _) eq_refl) in E. discriminate.
    + intro H. apply G. destruct H as [(fl & f & (a & c & E & P1 & P2) & M & X)|[N H]].
      * destruct a as [|y a].
        -- injection E as <- <-. right. split; auto.
           rewrite (field_keyword_fun kw kw0 fld P1 K0) in *. rewrite (dget_dset _ _ tag_eqb tag_eqb_eq).
           rewrite (proj2 (tag_eqb_eq _ _) eq_refl). congruence.
        -- injection E as <- E. left. exists fl, f. split; auto. exists a, c. auto.
      * inversion N as [|? ? N1 N2]; subst. right. split; auto.
        rewrite (dget_dset _ _ tag_eqb tag_eqb_eq). destruct (tag_eqb (key_of kw) (key_of kw0)) eqn:E; auto.
        apply tag_eqb_eq, key_of_inj in E. subst kw0. contradiction.
    + intro H. apply IK in H. destruct H as [H|(kw & fl & -> & I & K)].
      * assert (KD : forall d : list (option str * option field), In k (dkeys (dset tag_eqb (key_of kw0) (Some f0) d)) -> k = key_of kw0 \/ In k (dkeys d)).
        { induction d as [|[q w] d IHd]; cbn; [intuition|]. destruct (tag_eqb _ q); cbn; intuition. }
        apply KD in H. destruct H as [->|H]; auto. right. exists kw0, fld. repeat split; auto. now left.
      * right. exists kw, fl. repeat split; auto. now right.
    + intros H. apply IK.
      assert (KD : forall d : list (option str * option field), k = key_of kw0 \/ In k (dkeys d) -> In k (dkeys (dset tag_eqb (key_of kw0) (Some f0) d))).
      { induction d as [|[q w] d IHd]; cbn; [intuition|].
        destruct (tag_eqb _ q) eqn:T; cbn; [apply tag_eqb_eq in T; intuition congruence|intuition]. }
      destruct H as [H|(kw & fl & -> & [<-|I] & K)]; auto.
      * left. apply KD. left. f_equal. eapply field_keyword_fun; eauto.
      * right. exists kw, fl. auto.
Qed.

Lemma bib_section_fold : forall e lines, X4BibSection e lines = fold_res (bib_add e) (bib_chunkify lines) (mkBib [] []).
Proof. reflexivity. Qed.

(** What make_field keeps of the text. *)
Lemma reaction_field_plain : forall e x f rs, X4ReactionField e x = Ok (f, rs) -> X4PlainField x = Ok f.
Proof.
  intros e x f rs H. unfold X4ReactionField in H. apply bind_ok in H. destruct H as (f' & F & H).
  apply bind_ok in H. destruct H as (rs' & _ & H). injection H as <- <-. auto.
Qed.
Lemma monitor_field_plain : forall e x f rs, X4MonitorField e x = Ok (f, rs) -> X4PlainField x = Ok f.
Proof.
  intros e x f rs H. unfold X4MonitorField in H. apply bind_ok in H. destruct H as (f' & F & H).
  apply bind_ok in H. destruct H as (rs' & _ & H). injection H as <- <-. auto.
Qed.
Lemma institute_field_plain : forall e x f rs, X4InstituteField e x = Ok (f, rs) -> X4PlainField x = Ok f.
Proof.
  intros e x f rs H. unfold X4InstituteField in H. apply bind_ok in H. destruct H as (f' & F & H).
  apply bind_ok in H. destruct H as (rs' & _ & H). injection H as <- <-. auto.
Qed.
Lemma reference_field_plain : forall e x f r, X4ReferenceField e x = Ok (f, r) -> X4PlainField x = Ok f.
Proof.
  intros e x f r H. unfold X4ReferenceField in H. apply bind_ok in H. destruct H as (f' & F & H).
  destruct (collect _ _ _) as [refs err]. destruct err as [err|].
  - destruct err; try discriminate. injection H as <- _. auto.
  - apply bind_ok in H. destruct H as (a & _ & H). apply bind_ok in H. destruct H as (c & _ & H).
    cbv zeta in H. apply bind_ok in H. destruct H as (d & _ & H). injection H as <- _. auto.
Qed.

Definition no_author (fld : list str) : Prop :=
  contains (lit "No author given") (join [nl] fld) = true \/ contains (lit ".NOT GIVEN.") (join [nl] fld) = true.

Lemma make_field_plain : forall e k fld f, make_field e k fld = Ok f ->
  X4PlainField fld = Ok (field_plain f) \/
  (k = Some (lit "AUTHOR") /\ no_author fld /\ field_plain f = mkPlain None []).
Proof.
  intros e k fld f H. unfold make_field in H. cbv zeta in H.
  destruct (tag_eqb k (Some (lit "REACTION"))).
  { apply bind_ok in H. destruct H as ([g rs] & E & H). injection H as <-. left. now apply reaction_field_plain in E. }
  destruct (tag_eqb k (Some (lit "MONITOR"))).
  { apply bind_ok in H. destruct H as ([g rs] & E & H). injection H as <-. left. now apply monitor_field_plain in E. }
  destruct (tag_eqb k (Some (lit "REFERENCE"))).
  { apply bind_ok in H. destruct H as ([g rs] & E & H). injection H as <-. left. now apply reference_field_plain in E. }
  destruct (tag_eqb k (Some (lit "AUTHOR"))) eqn:EA.
  { apply bind_ok in H. destruct H as (a & E & H). injection H as <-. unfold X4AuthorField in E. cbv zeta in E.
    destruct (_ || _) eqn:O.
    - injection E as <-. right. apply tag_eqb_eq in EA. apply orb_true_iff in O. auto.
    - apply bind_ok in E. destruct E as (g & G & E). apply bind_ok in E. destruct E as (al & _ & E).
      injection E as <-. left. exact G. }
  destruct (tag_eqb k (Some (lit "TITLE"))).
  { apply bind_ok in H. destruct H as (g & E & H). injection H as <-. auto. }
  destruct (tag_eqb k (Some (lit "INSTITUTE"))).
  { apply bind_ok in H. destruct H as ([g rs] & E & H). injection H as <-. left. now apply institute_field_plain in E. }
  apply bind_ok in H. destruct H as (g & E & H). injection H as <-. auto.
Qed.

Lemma contains_mentions : forall p s, contains p s = true -> mentions s p.
Proof.
  assert (PF : forall p s, is_prefix p s = true -> exists b, s = p ++ b).
  { induction p as [|c p IH]; intros s H; [exists s; reflexivity|]. destruct s as [|d s]; [discriminate|].
    cbn in H. apply andb_true_iff in H. destruct H as [H1 H2]. apply Ascii.eqb_eq in H1. subst.
    destruct (IH s H2) as (b & ->). exists b. reflexivity. }
  intros p s. induction s as [|c s IH]; intro H.
  - cbn in H. apply orb_true_iff in H. destruct H as [H|H]; [|discriminate].
    apply PF in H. destruct H as (b & H). exists [], b. auto.
  - cbn [contains] in H. apply orb_true_iff in H. destruct H as [H|H].
    + apply PF in H. destruct H as (b & H). exists [], b. auto.
    + destruct (IH H) as (a & b & ->). exists (c :: a), b. reflexivity.
Qed.

Lemma mentions_join : forall p lines, ~ In nl p -> p <> [] -> mentions (join [nl] lines) p ->
  exists l, In l lines /\ mentions l p.
Proof.
  intros p lines N NE. induction lines as [|x [|y ls] IH]; intros (a & b & H).
  - cbn in H. symmetry in H. apply app_eq_nil in H. destruct H as [_ H]. apply app_eq_nil in H. destruct H. contradiction.
  - exists x. split; [now left|]. exists a, b. exact H.
  - rewrite join_cons in H by discriminate. cbn [app] in H.
    apply app_eq_app in H. destruct H as (l & [[H1 H2]|[H1 H2]]).
    + (* x = a ++ l *) apply app_eq_app in H2. destruct H2 as (m & [[H2 H3]|[H2 H3]]).
      * destruct m as [|c m].
        -- rewrite app_nil_r in H2. exists x. split; [now left|]. exists a, []. subst. now rewrite app_nil_r.
        -- exfalso. apply N. cbn in H3. injection H3 as <- _. rewrite H2. apply in_or_app. right. now left.
      * exists x. split; [now left|]. exists a, m. now subst.
    + (* a = x ++ l *) destruct l as [|c l].
      * exfalso. destruct p as [|c p]; [contradiction|]. cbn in H2. injection H2 as <- _. apply N. now left.
      * cbn in H2. injection H2 as <- H2. destruct IH as (z & I & M); [exists l, b; auto|].
        exists z. split; auto. now right.
Qed.

Lemma no_author_missing : forall fld, no_author fld -> author_missing fld.
Proof.
  intros fld [H|H]; apply contains_mentions in H; apply mentions_join in H;
    try (vm_compute; intuition discriminate); destruct H as (l & I & M); exists l; auto.
Qed.

Lemma bib_lookup : forall e lines b, X4BibSection e lines = Ok b ->
  forall kw x, dget tag_eqb (key_of kw) (b_dict b) = Some x <->
    exists fld f, last_such (field_keyword kw) (bib_chunkify lines) fld /\ make_field e (key_of kw) fld = Ok f /\ x = Some f.
Proof.
  intros e lines b H kw x. rewrite bib_section_fold in H.
  destruct (fold_bib_spec _ _ _ _ H) as (_ & _ & G & _). rewrite G. cbn [b_dict]. split.
  - intros [A|[_ A]]; [auto|discriminate].
  - auto.
Qed.

Lemma bib_distinct : forall e lines b kws, X4BibSection e lines = Ok b ->
  Forall2 field_keyword kws (bib_chunkify lines) -> NoDup kws ->
  forall kw fld, In fld (bib_chunkify lines) -> field_keyword kw fld ->
  exists f, dget tag_eqb (key_of kw) (b_dict b) = Some (Some f) /\
    (X4PlainField fld = Ok (field_plain f) \/ (kw = list_ascii_of_string "AUTHOR" /\ author_missing fld)).
Proof.
  intros e lines b kws H F2 ND kw fld I K.
  assert (L : last_such (field_keyword kw) (bib_chunkify lines) fld).
  { clear H. revert ND I. induction F2 as [|k y kws ys Ky F2 IH]; intros ND I; [destruct I|].
    inversion ND as [|? ? N1 N2]; subst. destruct I as [->|I].
    - exists [], ys. repeat split; auto. apply Forall_forall. intros z Iz Kz.
      rewrite (field_keyword_fun _ _ _ K Ky) in Kz. apply N1.
      clear - F2 Iz Kz. induction F2 as [|k' y' kws ys Ky F2 IH]; [destruct Iz|].
      destruct Iz as [->|Iz]; [left; eapply field_keyword_fun; eauto|right; auto].
    - destruct (IH N2 I) as (a & c & E & P1 & P2). exists (y :: a), c. rewrite E. auto. }
  rewrite bib_section_fold in H. destruct (fold_bib_spec _ _ _ _ H) as (_ & FM & G & _).
  rewrite Forall_forall in FM. destruct (FM fld I) as (kw' & f & K' & M).
  rewrite (field_keyword_fun _ _ _ K' K) in M. exists f. split.
  - apply G. left. exists fld, f. auto.
  - destruct (make_field_plain _ _ _ _ M) as [P|(A & N & _)]; auto. right. split.
    + apply key_of_inj. exact A.
    + now apply no_author_missing.
Qed.

Lemma bib_empty : forall e lines, Forall frame_line lines -> X4BibSection e lines = Raise IndexError.
Proof.
  intros e lines F. rewrite bib_section_fold. unfold bib_chunkify. rewrite fold_bib_filter.
  assert (E : filter (fun l => negb (is_frame l)) lines = []).
  { induction F as [|l ls H F IH]; auto. cbn [filter]. apply is_frame_iff in H. now rewrite H. }
  rewrite E. reflexivity.
Qed.

(** ** repr *)

Lemma dset_absent : forall (K V : Type) (eqb : K -> K -> bool), (forall a b, eqb a b = true <-> a = b) ->
  forall k (v : V) d, ~ In k (map fst d) -> dset eqb k v d = d ++ [(k, v)].
Proof.
  intros K V eqb H k v d. induction d as [|[q w] d IH]; intro N; auto. cbn in *.
  destruct (eqb k q) eqn:E; [apply H in E; subst; tauto|]. rewrite IH; tauto.
Qed.

Lemma fold_bib_distinct : forall e kws flds, Forall2 field_keyword kws flds -> NoDup kws ->
  forall b b', fold_res (bib_add e) flds b = Ok b' -> (forall kw, In kw kws -> ~ In (key_of kw) (dkeys (b_dict b))) ->
  exists fs, Forall2 (fun kf f => make_field e (key_of (fst kf)) (snd kf) = Ok f) (combine kws flds) fs /\
    b_dict b' = b_dict b ++ combine (map key_of kws) (map Some fs) /\ b_keys b' = b_keys b ++ map key_of kws.
Proof.
  intros e kws flds F2. induction F2 as [|kw fld kws flds K F2 IH]; intros ND b b' H N.
  - injection H as <-. exists []. split; [constructor|]. cbn. rewrite !app_nil_r. auto.
  - cbn [fold_res] in H. apply bind_ok in H. destruct H as (b1 & A & H). apply bib_add_ok in A.
    destruct A as (kw' & f & K' & M & ->). rewrite (field_keyword_fun _ _ _ K' K) in *. clear K' kw'.
    inversion ND as [|? ? N1 N2]; subst.
    assert (D : dset tag_eqb (key_of kw) (Some f) (b_dict b) = b_dict b ++ [(key_of kw, Some f)]).
    { apply (dset_absent _ _ tag_eqb tag_eqb_eq). apply N. now left. }
    destruct (IH N2 _ _ H) as (fs & G & Db & Kb).
    { cbn [b_dict]. rewrite D. intros k I J. unfold dkeys in J. rewrite map_app in J. apply in_app_or in J.
      destruct J as [J|[J|[]]].
      - apply (N k); auto. now right.
      - cbn in J. apply key_of_inj in J. subst. contradiction. }
    exists (f :: fs). cbn [combine map]. repeat split.
    + constructor; auto.
    + rewrite Db. cbn [b_dict]. rewrite D, <- app_assoc. reflexivity.
    + rewrite Kb. cbn [b_keys]. rewrite <- app_assoc. reflexivity.
Qed.

Lemma group_length : forall p ts, length (group p ts) = length ts.
Proof. intros p [|t ts]; auto. cbn [group length]. now rewrite map_length. Qed.

Lemma dget_in : forall p ts (d : list (ascii * list str)), NoDup (dkeys d) -> In (p, ts) d -> dget Ascii.eqb p d = Some ts.
Proof.
  intros p ts d N I. induction d as [|[q w] d IH]; [destruct I|]. cbn in *. inversion N as [|? ? N1 N2]; subst.
  destruct I as [I|I].
  - injection I as -> ->. now rewrite (proj2 (aeq p p) eq_refl).
  - destruct (Ascii.eqb p q) eqn:E; auto. apply Ascii.eqb_eq in E. subst q.
    exfalso. apply N1. apply in_map_iff. exists (p, ts). auto.
Qed.

Lemma list_sum_perm : forall a b, Permutation a b -> list_sum a = list_sum b.
Proof. induction 1; cbn; unfold list_sum in *; cbn in *; lia. Qed.

Lemma repr_lines_length : forall f tag, good_plain f -> length (repr_lines tag f) = plain_total_len f.
Proof.
  intros f tag G. unfold repr_lines.
  transitivity (length (concat (map (fun p => group p (plain_get f p)) (plain_keys f)))).
  { destruct (concat _); reflexivity. }
  transitivity (list_sum (map (fun p => length (plain_get f p)) (plain_keys f))).
  { clear. induction (plain_keys f); auto. cbn [map concat]. rewrite app_length, IHl, group_length. reflexivity. }
  unfold plain_total_len, plain_keys.
  rewrite (list_sum_perm _ _ (Permutation_map _ (csort_perm (dkeys (f_dict f))))).
  f_equal. unfold dvals, dkeys. rewrite !map_map. apply map_ext_in. intros [p ts] I. cbn. unfold plain_get.
  rewrite (dget_in p ts); auto. apply G.
Qed.

Lemma repr_lines_field : forall f tag, good_plain f -> strip tag = tag -> length tag <= 10 ->
  exists l ls, repr_lines tag f = l :: ls /\ has_keyword l tag /\ Forall continuation ls.
Proof.
  intros f tag G S L. unfold repr_lines. destruct (concat_groups_first f G) as (p & t & ls & C).
  assert (K : Forall continuation (concat (map (fun p => group p (plain_get f p)) (plain_keys f)))).
  { apply Forall_forall. intros x I. apply in_concat in I. destruct I as (g & Ig & Ix). apply in_map_iff in Ig.
    destruct Ig as (q & <- & _). unfold continuation, columns. rewrite skipn_O.
    destruct (plain_get f q) as [|u us]; [destruct Ix|]. cbn [group] in Ix. destruct Ix as [<-|Ix].
    - rewrite firstn_app, repeat_length. cbn [Nat.sub]. rewrite firstn_O, app_nil_r.
      apply firstn_repeat_blank.
    - apply in_map_iff in Ix. destruct Ix as (v & <- & _). rewrite firstn_app, repeat_length. cbn [Nat.sub].
      rewrite firstn_O, app_nil_r. apply firstn_repeat_blank. }
  rewrite C in *. cbn [retag]. exists (ljust 10 tag ++ skipn 10 (repeat sp 10 ++ p :: t)), ls.
  inversion K; subst. repeat split; auto.
  unfold has_keyword, columns. rewrite skipn_O.
  assert (E : firstn (10 - 0) (ljust 10 tag ++ skipn 10 (repeat sp 10 ++ p :: t)) = ljust 10 tag).
  { assert (length (ljust 10 tag) = 10) by (rewrite ljust_length; lia).
    rewrite firstn_app, H. cbn [Nat.sub]. rewrite firstn_O, app_nil_r. apply firstn_all2. lia. }
  rewrite E. apply strip_iff. unfold ljust. rewrite <- (app_nil_l (tag ++ _)), strip_surround; auto;
    [constructor|apply blank_repeat_sp].
Qed.

(** Number of digits. *)
Lemma n_digits_length : forall fuel k n acc, (n < 2 ^ N.of_nat fuel)%N -> 0 < fuel -> 0 < k ->
  (n < 10 ^ N.of_nat k)%N -> length (n_digits_aux fuel n acc) <= k + length acc.
Proof.
  induction fuel as [|fuel IH]; intros k n acc Hn Hf Hk H; [lia|]. cbn [n_digits_aux].
  cbv zeta. destruct (n / 10 =? 0)%N eqn:E0; [cbn [length]; lia|]. apply N.eqb_neq in E0.
  assert (E : (10 <= n)%N).
  { destruct (N.lt_ge_cases n 10) as [C|C]; auto. now rewrite N.div_small in E0. }
  assert (D : (n / 10 <= n / 2)%N) by (apply N.div_le_compat_l; lia).
  assert (P2 : (2 ^ N.of_nat (S fuel) = 2 * 2 ^ N.of_nat fuel)%N) by (rewrite Nat2N.inj_succ, N.pow_succ_r'; reflexivity).
  assert (D2 : (n / 2 < 2 ^ N.of_nat fuel)%N) by (apply N.div_lt_upper_bound; lia).
  destruct k as [|[|k]]; [lia| |].
  - exfalso. assert (X : (10 ^ N.of_nat 1 = 10)%N) by reflexivity. rewrite X in H. lia.
  - assert (P10 : (10 ^ N.of_nat (S (S k)) = 10 * 10 ^ N.of_nat (S k))%N) by (rewrite Nat2N.inj_succ, N.pow_succ_r'; reflexivity).
    assert (D3 : (n / 10 < 10 ^ N.of_nat (S k))%N) by (apply N.div_lt_upper_bound; lia).
    destruct fuel as [|fuel].
    + exfalso. assert (X : (2 ^ N.of_nat 1 = 2)%N) by reflexivity. rewrite X in Hn. lia.
    + specialize (IH (S k) (n / 10)%N (dig_chr (n mod 10) :: acc)). cbn [length] in IH.
      assert (Q := IH ltac:(lia) ltac:(lia) ltac:(lia) D3). lia.
Qed.

Lemma n_to_str_length : forall k n, 0 < k -> (n < 10 ^ N.of_nat k)%N -> length (n_to_str n) <= k.
Proof.
  intros k n Hk H. unfold n_to_str.
  pose proof (n_digits_length (S (N.size_nat n)) k n [] (size_nat_bound n) ltac:(lia) Hk H). cbn [length] in H0. lia.
Qed.

Lemma writes_nat : forall n, writes_number n (rjust 11 (nat_to_str n)).
Proof.
  intro n. unfold nat_to_str. destruct (n_to_str_spec (N.of_nat n)) as (ds & E & D & NE & V).
  exists ds. rewrite E, V. repeat split; auto; [|lia].
  apply strip_iff. unfold rjust. rewrite <- (app_nil_r (digits_text ds)) at 2.
  rewrite strip_surround; [|apply blank_repeat_sp|constructor].
  destruct (digits_ends_not_space ds D). now apply strip_id.
Qed.

Lemma rjust_exact : forall k s, length s <= k -> length (rjust k s) = k.
Proof. intros. rewrite rjust_length. lia. Qed.

Lemma columns_app_r : forall i j a b, length a = i -> columns i (i + j) (a ++ b) = firstn j b.
Proof.
  intros i j a b L. unfold columns. rewrite skipn_app, L, Nat.sub_diag, skipn_O.
  rewrite skipn_all2 by lia. cbn [app]. f_equal. lia.
Qed.

Definition writes (b : nat) (s : str) (n : nat) : Prop := writes_number n (columns (11 * b) (11 * (b + 1)) s).

Lemma three_cells : forall a b c : str, length a = 11 -> length b = 11 ->
  columns 0 11 (a ++ b ++ c) = a /\ columns 11 22 (a ++ b ++ c) = b /\ columns 22 33 (a ++ b ++ c) = firstn 11 c.
Proof.
  intros a b c La Lb. repeat split.
  - unfold columns. rewrite skipn_O, firstn_app, La. cbn [Nat.sub]. rewrite firstn_O, app_nil_r. apply firstn_all2. lia.
  - change 22 with (11 + 11). rewrite columns_app_r by auto. rewrite firstn_app, Lb. cbn [Nat.sub].
    rewrite firstn_O, app_nil_r. apply firstn_all2. lia.
  - rewrite app_assoc. change 33 with (22 + 11). apply columns_app_r. rewrite app_length. lia.
Qed.

Lemma repr_text_lines : forall header (rs : list (list str)) footer,
  header ++ [nl] ++ concat (map (fun r => r ++ [nl]) (map (join [nl]) rs)) ++ footer
  = join [nl] (header :: map (join [nl]) rs ++ [footer]).
Proof.
  intros h rs ft. rewrite join_cons by (destruct rs; discriminate). f_equal. f_equal.
  induction rs as [|r rs IH]; auto. cbn [map concat app]. rewrite join_cons by (destruct rs; discriminate).
  rewrite <- IH. now rewrite <- !app_assoc.
Qed.

Lemma split_blocks : forall header (rs : list (list str)) footer,
  ~ In nl header -> ~ In nl footer -> (forall r, In r rs -> r <> []) -> (forall r l, In r rs -> In l r -> ~ In nl l) ->
  split_char nl (header ++ [nl] ++ concat (map (fun r => r ++ [nl]) (map (join [nl]) rs)) ++ footer)
  = header :: concat rs ++ [footer].
Proof.
  intros h rs ft Nh Nf NE NN. rewrite repr_text_lines.
  assert (E : join [nl] (h :: map (join [nl]) rs ++ [ft]) = join [nl] (concat ([h] :: rs ++ [[ft]]))).
  { rewrite <- join_concat.
    - cbn [map]. rewrite map_app. reflexivity.
    - intros g [<-|I]; [discriminate|]. apply in_app_or in I. destruct I as [I|[<-|[]]]; [auto|discriminate]. }
  rewrite E. cbn [concat app]. rewrite concat_app. cbn [concat]. rewrite app_nil_r.
  apply split_comma; [discriminate|]. intros x [<-|I]; auto. apply in_app_or in I. destruct I as [I|[<-|[]]]; auto.
  apply in_concat in I. destruct I as (r & Ir & Ix). eauto.
Qed.

Lemma map_res_Ok_inv : forall (A B : Type) (f : A -> res B) l r, map_res f l = Ok r -> Forall2 (fun x y => f x = Ok y) l r.
Proof. intros. now apply map_res_Forall2. Qed.

Definition same_text (f g : plain) : Prop :=
  f_tag f = f_tag g /\ forall p, dget Ascii.eqb p (f_dict f) = dget Ascii.eqb p (f_dict g).

(** The block of lines written for a field. *)
Definition block_of (f : field) : list str :=
  repr_lines (match f_tag (field_plain f) with Some t => t | None => [] end) (field_plain f).

Lemma combine_keys_get : forall kws (fs : list field), NoDup kws -> length kws = length fs ->
  map_res (fun k => f <- of_option KeyError (dget tag_eqb k (combine (map key_of kws) (map Some fs))) ;;
                    match f with Some f => field_repr f | None => Ok (lit "None") end) (map key_of kws)
  = map_res field_repr fs.
Proof.
  intros kws fs N L.
  assert (K : forall d kws fs, NoDup kws -> length kws = length fs ->
     (forall kw, In kw kws -> ~ In (key_of kw) (map fst d)) ->
     map_res (fun k => f <- of_option KeyError (dget tag_eqb k (d ++ combine (map key_of kws) (map Some fs))) ;;
                    match f with Some f => field_repr f | None => Ok (lit "None") end) (map key_of kws)
     = map_res field_repr fs).
  { clear. intros d kws. revert d. induction kws as [|kw kws IH]; intros d [|f fs] N L D; try discriminate; auto.
    cbn [map combine map_res]. inversion N as [|? ? N1 N2]; subst.
    assert (E : dget tag_eqb (key_of kw) (d ++ (key_of kw, Some f) :: combine (map key_of kws) (map Some fs)) = Some (Some f)).
    { assert (NI : ~ In (key_of kw) (map fst d)) by (apply D; now left). clear - NI.
      induction d as [|[q w] d IHd]; cbn.
      - now rewrite (proj2 (tag_eqb_eq _ _) eq_refl).
      - destruct (tag_eqb (key_of kw) q) eqn:T; [apply tag_eqb_eq in T; cbn in NI; intuition congruence|].
        apply IHd. cbn in NI. tauto. }
    rewrite E. cbn [of_option bind]. injection L as L.
    specialize (IH (d ++ [(key_of kw, Some f)]) fs N2 L).
    rewrite <- app_assoc in IH. cbn [app] in IH. rewrite IH; auto.
    intros k I J. rewrite map_app in J. apply in_app_or in J. destruct J as [J|[J|[]]].
    - apply (D k); auto. now right.
    - cbn in J. apply key_of_inj in J. subst. contradiction. }
  apply (K [] kws fs N L). intros kw _ [].
Qed.

Lemma bib_repr_full : forall e lines b kws, X4BibSection e lines = Ok b ->
  Forall2 field_keyword kws (bib_chunkify lines) -> NoDup kws ->
  (forall l, In l lines -> ~ In nl l) ->
  (forall fld, In fld (bib_chunkify lines) -> field_keyword (lit "AUTHOR") fld -> ~ author_missing fld) ->
  (N.of_nat (length lines) < 10 ^ 11)%N ->
  exists s header gs footer, bib_repr b = Ok s /\ split_char nl s = header :: concat gs ++ [footer] /\
    has_keyword header (lit "BIB") /\ has_keyword footer (lit "ENDBIB") /\
    writes_number (length gs) (columns 11 22 header) /\ writes_number (length (concat gs)) (columns 22 33 header) /\
    writes_number (length (concat gs)) (columns 11 22 footer) /\
    bib_chunkify (split_char nl s) = gs /\
    Forall2 (fun fld g => length g = length fld /\
       exists f f', X4PlainField fld = Ok f /\ X4PlainField g = Ok f' /\ f_tag f' = f_tag f /\
         ((In sp (dkeys (f_dict f)) -> forall p, In p (dkeys (f_dict f)) -> (32 <= code p)%N) -> same_text f' f))
      (bib_chunkify lines) gs /\
    (columns 0 11 header = ljust 11 (lit "BIB") /\ columns 0 11 footer = ljust 11 (lit "ENDBIB")) /\
    (exists fs, gs = map block_of fs /\ b = mkBib (combine (map key_of kws) (map Some fs)) (map key_of kws) /\
       Forall2 (fun kf f => make_field e (key_of (fst kf)) (snd kf) = Ok f) (combine kws (bib_chunkify lines)) fs /\
       Forall2 (fun fld f => exists kw, field_keyword kw fld /\ X4PlainField fld = Ok (field_plain f) /\
                  good_plain (field_plain f) /\ f_tag (field_plain f) = Some kw /\ strip kw = kw /\ length kw <= 10 /\
                  ~ In nl kw /\ plain_total_len (field_plain f) = length fld /\ ~ In kw [lit "BIB"; lit "ENDBIB"]) (bib_chunkify lines) fs).
Proof.
  intros e lines b kws H F2 ND NN NA LL.
  assert (HB := H). rewrite bib_section_fold in HB.
  destruct (fold_bib_distinct e kws _ F2 ND _ _ HB) as (fs & FM & DB & KB); [intros kw _ []|].
  cbn [b_dict b_keys app] in DB, KB.
  assert (LK : length kws = length (bib_chunkify lines)).
  { clear - F2. induction F2; cbn; auto. }
  assert (LF : length kws = length fs).
  { clear - FM LK. assert (length (combine kws (bib_chunkify lines)) = length fs).
    { induction FM; cbn; auto. } rewrite combine_length in H. lia. }
  (* every chunk line is an input line and not a frame *)
  destruct (bib_chunkify_spec lines) as (first & rest & kept & CE & OM & CC & KE & OF & KF).
  assert (INL : forall fld l, In fld (bib_chunkify lines) -> In l fld -> In l lines /\ is_frame l = false).
  { intros fld l I J. assert (In l kept) as K by (rewrite <- CC, <- CE; apply in_concat; eauto).
    apply omits_filter in OM. rewrite OM in K. apply filter_In in K. destruct K as [K1 K2].
    split; auto. now apply negb_true_iff in K2. }
  (* facts per field *)
  assert (PF : Forall2 (fun fld f => exists kw, field_keyword kw fld /\ X4PlainField fld = Ok (field_plain f) /\
                  good_plain (field_plain f) /\ f_tag (field_plain f) = Some kw /\ strip kw = kw /\ length kw <= 10 /\
                  ~ In nl kw /\ plain_total_len (field_plain f) = length fld /\ ~ In kw [lit "BIB"; lit "ENDBIB"]) (bib_chunkify lines) fs).
  { clear - FM F2 INL NN NA. revert FM NA INL. generalize (bib_chunkify lines) F2. clear F2.
    intros flds F2. revert fs. induction F2 as [|kw fld kws flds K F2 IH]; intros fs FM NA INL.
    - inversion FM. constructor.
    - cbn [combine] in FM. inversion FM as [|? f ? fs' M FM']; subst. cbn [fst snd] in M. constructor.
      + exists kw. assert (P : X4PlainField fld = Ok (field_plain f)).
        { destruct (make_field_plain _ _ _ _ M) as [P|(A & N & _)]; auto. exfalso.
          apply (NA fld (or_introl eq_refl)).
          - apply key_of_inj with (b := lit "AUTHOR") in A. now subst.
          - now apply no_author_missing. }
        destruct (plain_ok _ _ P) as (l & ls & E & T & D). destruct K as (l' & ls' & E' & K).
        rewrite E in E'. injection E' as <- <-. apply strip_iff in K. change (columns 0 10 l) with (slice l 0 10) in K.
        assert (Il : In l fld) by (rewrite E; now left).
        destruct (INL fld l (or_introl eq_refl) Il) as [I1 I2].
        split; [exists l, ls; split; auto; apply strip_iff; exact K|].
        split; [exact P|].
        split; [apply (parsed_good _ _ P); intros x Ix; apply NN; now apply (INL fld x (or_introl eq_refl))|].
        split; [now rewrite T, K|].
        split; [rewrite <- K; apply strip_strip|].
        split; [rewrite <- K; etransitivity; [apply strip_length|]; rewrite slice_length; lia|].
        split; [rewrite <- K; intro J; apply in_strip, in_slice in J; now apply NN in J|].
        split; [now apply plain_field_spec in P|].
        rewrite <- K. unfold is_frame in I2. now apply smem_not_In in I2.
      + apply IH; auto.
        * intros x Ix. apply NA. now right.
        * intros x l Ix. apply INL. now right. }
  set (gs := map block_of fs).
  assert (RS : map_res field_repr fs = Ok (map (join [nl]) gs)).
  { unfold gs. rewrite map_map. apply map_res_ok. intros f I.
    assert (X : exists fld, In fld (bib_chunkify lines) /\ exists kw, good_plain (field_plain f) /\ f_tag (field_plain f) = Some kw).
    { clear - PF I. induction PF as [|fld g flds fs (kw & _ & _ & G & T & _) PF IH]; [destruct I|].
      destruct I as [->|I]; [exists fld; split; [now left|eauto]|].
      destruct (IH I) as (x & Ix & R). exists x. split; auto. now right. }
    destruct X as (fld & _ & kw & G & T). unfold field_repr, block_of. rewrite T. now apply plain_repr_lines. }
  set (total := list_sum (map field_total_len fs)).
  assert (TL : bib_totalLen b = Ok total).
  { unfold bib_totalLen. rewrite DB.
    assert (E : dvals (combine (map key_of kws) (map Some fs)) = map Some fs).
    { clear - LF. revert kws LF. induction fs as [|f fs IH]; intros [|k kws] L; try discriminate; auto.
      cbn. f_equal. apply IH. auto. }
    rewrite E. rewrite (map_res_ok _ _ _ (fun o => match o with Some f => field_total_len f | None => 0 end)).
    - cbn [bind]. now rewrite map_map.
    - intros x I. apply in_map_iff in I. destruct I as (f & <- & _). reflexivity. }
  assert (GL : length (concat gs) = total).
  { unfold gs, total. clear - PF. induction PF as [|fld f flds fs (kw & _ & _ & G & T & _) PF IH]; auto.
    cbn [map concat]. rewrite app_length, IH. unfold block_of, field_total_len. rewrite T.
    now rewrite repr_lines_length. }
  assert (LD : length (b_dict b) = length gs).
  { unfold gs. rewrite DB, combine_length, !map_length. lia. }
  assert (GB : forall g, In g gs -> exists f kw, In f fs /\ g = block_of f /\ good_plain (field_plain f) /\ f_tag (field_plain f) = Some kw /\ ~ In nl kw /\ g = repr_lines kw (field_plain f) /\ strip kw = kw /\ length kw <= 10 /\ ~ In kw [lit "BIB"; lit "ENDBIB"]).
  { intros g I. unfold gs in I. apply in_map_iff in I. destruct I as (f & <- & I). 
    clear - PF I. induction PF as [|fld f0 flds fs (kw & _ & _ & G & T & S & L & N & _ & B) PF IH]; [destruct I|].
    destruct I as [->|I].
    - exists f, kw. unfold block_of. rewrite T. split; [now left|].
      repeat (split; [first [reflexivity|assumption]|]). assumption.
    - destruct (IH I) as (f' & kw' & I' & R). exists f', kw'. split; auto. now right. }
  set (header := ljust 11 (lit "BIB") ++ rjust 11 (nat_to_str (length gs)) ++ rjust 11 (nat_to_str total)).
  set (footer := ljust 11 (lit "ENDBIB") ++ rjust 11 (nat_to_str total)).
  assert (NT : forall n, ~ In nl (rjust 11 (nat_to_str n))).
  { intros n I. unfold rjust in I. apply in_app_or in I. destruct I as [I|I]; [now apply sp_not_nl in I|].
    unfold nat_to_str in I. destruct (n_to_str_spec (N.of_nat n)) as (ds & E & D & _). rewrite E in I.
    pose proof (digits_forallb ds D) as FB.
    rewrite forallb_forall in FB. apply FB in I. discriminate. }
  assert (NH : ~ In nl header).
  { unfold header. intro I. apply in_app_or in I. destruct I as [I|I]; [vm_compute in I; intuition discriminate|].
    apply in_app_or in I. destruct I as [I|I]; now apply NT in I. }
  assert (NF : ~ In nl footer).
  { unfold footer. intro I. apply in_app_or in I. destruct I as [I|I]; [vm_compute in I; intuition discriminate|].
    now apply NT in I. }
  assert (SP : split_char nl (header ++ [nl] ++ concat (map (fun r => r ++ [nl]) (map (join [nl]) gs)) ++ footer) = header :: concat gs ++ [footer]).
  { apply split_blocks; auto.
    - intros g I. destruct (GB g I) as (f & kw & _ & _ & G & _ & _ & -> & S & L & _).
      destruct (repr_lines_field _ _ G S L) as (l & ls & -> & _). discriminate.
    - intros g l I J. destruct (GB g I) as (f & kw & _ & _ & G & _ & N & -> & _). now apply (repr_lines_no_nl _ _ G N). }
  assert (SMALL : forall n, n <= length lines -> length (rjust 11 (nat_to_str n)) = 11).
  { intros n Ln. apply rjust_exact. apply n_to_str_length; [lia|]. change (N.of_nat 11) with 11%N. lia. }
  assert (TOT : total = length kept).
  { rewrite <- CC, <- CE. unfold total. clear - PF.
    induction PF as [|fld f flds fs (kw & _ & _ & _ & _ & _ & _ & _ & TT & _) PF IH]; auto.
    cbn [map concat]. rewrite app_length, <- IH. unfold field_total_len at 1. now rewrite <- TT. }
  assert (KL : length kept <= length lines).
  { clear - OM. induction OM; cbn; lia. }
  assert (GLE : length gs <= length (concat gs)).
  { clear - GB. revert GB. generalize gs. clear gs. induction gs as [|g gs IH]; intro GB; [auto|]. cbn [concat].
    rewrite app_length. destruct (GB g (or_introl eq_refl)) as (f & kw & _ & _ & G & _ & _ & -> & S & L & _).
    destruct (repr_lines_field _ _ G S L) as (l & ls & -> & _). cbn [length].
    assert (length gs <= length (concat gs)) by (apply IH; intros; apply GB; now right). lia. }
  assert (S1 := SMALL (length gs) ltac:(lia)). assert (S2 := SMALL total ltac:(lia)).
  exists (header ++ [nl] ++ concat (map (fun r => r ++ [nl]) (map (join [nl]) gs)) ++ footer), header, gs, footer.
  rewrite SP.
  destruct (three_cells (ljust 11 (lit "BIB")) (rjust 11 (nat_to_str (length gs))) (rjust 11 (nat_to_str total)) eq_refl S1) as (C1 & C2 & C3).
  assert (C4 : columns 11 22 footer = rjust 11 (nat_to_str total)).
  { unfold footer. change 22 with (11 + 11). rewrite columns_app_r by reflexivity. apply firstn_all2. lia. }
  assert (HK1 : has_keyword header (lit "BIB")).
  { apply strip_iff. reflexivity. }
  assert (HK2 : has_keyword footer (lit "ENDBIB")).
  { apply strip_iff. reflexivity. }
  repeat split.
  - unfold bib_repr. rewrite TL. cbn [bind]. rewrite KB, DB, combine_keys_get by auto. rewrite RS. cbn [bind].
    f_equal. unfold header, footer. rewrite <- !app_assoc. rewrite DB in LD. now rewrite LD.
  - exact HK1.
  - exact HK2.
  - fold header in C2. rewrite C2. apply writes_nat.
  - fold header in C3. rewrite C3, GL, firstn_all2 by lia. apply writes_nat.
  - rewrite C4, GL. apply writes_nat.
  - assert (OMG : omits frame_line (header :: concat gs ++ [footer]) (concat gs)).
    { apply omits_skip; [left; exact HK1|].
      assert (FR : forall l, In l (concat gs) -> ~ frame_line l).
      { intros l I. apply in_concat in I. destruct I as (g & Ig & Il).
        destruct (GB g Ig) as (f & kw & _ & _ & G & _ & N & -> & S & L & B).
        destruct (repr_lines_field _ _ G S L) as (l0 & ls & E & HK & CT). rewrite E in Il. destruct Il as [<-|Il].
        - intros [X|X]; apply strip_iff in X; apply strip_iff in HK; rewrite HK in X; apply B; [left|right; left]; auto.
        - rewrite Forall_forall in CT. apply CT in Il. intros [X|X]; apply strip_iff in X;
            unfold continuation in Il; apply strip_blank in Il; rewrite Il in X; discriminate. }
      revert FR. generalize (concat gs). induction l as [|x l IH]; intro FR; cbn [app].
      - apply omits_skip; [right; exact HK2|constructor].
      - apply omits_keep; [apply FR; now left|apply IH; intros; apply FR; now right]. }
    destruct gs as [|g gs'] eqn:EG.
    { exfalso. unfold gs in EG. destruct fs; [|discriminate]. rewrite CE in PF. inversion PF. }
    assert (PG : Forall2 (fun fld g => exists kw l ls, field_keyword kw fld /\ g = l :: ls /\ has_keyword l kw /\ Forall continuation ls) (first :: rest) (g :: gs')).
    { rewrite <- CE, <- EG. unfold gs. clear - PF. induction PF as [|fld f flds fs (kw & K & _ & G & T & S & L & _) PF IH]; constructor; auto.
      destruct (repr_lines_field _ _ G S L) as (l & ls & E & HK & CT). exists kw, l, ls. unfold block_of. rewrite T. auto. }
    inversion PG as [|? ? ? ? P1 P2]; subst.
    apply bib_chunkify_fields; auto.
    + destruct P1 as (kw & l & ls & _ & -> & _ & CT). exists l, ls. auto.
    + clear - P2 KF. revert KF. induction P2 as [|fld h flds hs (kw & l & ls & (l' & ls' & -> & K) & -> & HK & CT) P2 IH]; intro KF; constructor.
      * inversion KF as [|? ? (m & ms & E & NC & _) _]; subst. injection E as <- <-.
        exists l, ls. repeat split; auto. unfold continuation in *. intro B. apply NC.
        apply strip_blank. apply strip_blank in B. apply strip_iff in HK, K. congruence.
      * inversion KF; subst. auto.
  - unfold gs. clear - PF.
    induction PF as [|fld f flds fs (kw & K & P & G & T & S & L & N & TT & _) PF IH]; constructor; auto.
    unfold block_of. rewrite T. split; [now rewrite repr_lines_length|].
    exists (field_plain f). destruct (repr_lines_field _ _ G S L) as (l & ls & E & HK & _).
    destruct (plain_field_total (repr_lines kw (field_plain f))) as (f' & P'); [rewrite E; discriminate|].
    exists f'. repeat split; auto.
    + destruct (plain_ok _ _ P') as (m & ms & E' & T' & _). rewrite E in E'. injection E' as <- <-.
      rewrite T', T. apply strip_iff in HK. now f_equal.
    + destruct (plain_ok _ _ P') as (m & ms & E' & T' & _). rewrite E in E'. injection E' as <- <-.
      rewrite T', T. apply strip_iff in HK. now f_equal.
    + intro p. destruct (plain_roundtrip (field_plain f) kw G T S L N H) as (s & f2 & R & P2 & _ & D & _).
      rewrite (plain_repr_lines _ _ G T) in R. injection R as <-. rewrite split_repr_lines in P2 by auto.
      rewrite P2 in P'. injection P' as <-. apply D.
  - exists fs. split; [reflexivity|]. split; [|split; [exact FM|exact PF]].
    destruct b as [bd bk]. cbn [b_dict b_keys] in DB, KB. now subst.
Qed.

Lemma bib_repr_spec : forall e lines b kws, X4BibSection e lines = Ok b ->
  Forall2 field_keyword kws (bib_chunkify lines) -> NoDup kws ->
  (forall l, In l lines -> ~ In nl l) ->
  (forall fld, In fld (bib_chunkify lines) -> field_keyword (lit "AUTHOR") fld -> ~ author_missing fld) ->
  (N.of_nat (length lines) < 10 ^ 11)%N ->
  exists s header gs footer, bib_repr b = Ok s /\ split_char nl s = header :: concat gs ++ [footer] /\
    has_keyword header (lit "BIB") /\ has_keyword footer (lit "ENDBIB") /\
    writes_number (length gs) (columns 11 22 header) /\ writes_number (length (concat gs)) (columns 22 33 header) /\
    writes_number (length (concat gs)) (columns 11 22 footer) /\
    bib_chunkify (split_char nl s) = gs /\
    Forall2 (fun fld g => length g = length fld /\
       exists f f', X4PlainField fld = Ok f /\ X4PlainField g = Ok f' /\ f_tag f' = f_tag f /\
         ((In sp (dkeys (f_dict f)) -> forall p, In p (dkeys (f_dict f)) -> (32 <= code p)%N) -> same_text f' f))
      (bib_chunkify lines) gs.
Proof.
  intros e lines b kws H F2 ND NN NA LL.
  destruct (bib_repr_full e lines b kws H F2 ND NN NA LL) as (s & h & gs & ft & R1 & R2 & R3 & R4 & R5 & R6 & R7 & R8 & R9 & _).
  exists s, h, gs, ft. auto 12.
Qed.
