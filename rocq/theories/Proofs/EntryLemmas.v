(** Lemmas about subentries and entries. *)
From Coq Require Import String List Ascii NArith ZArith Bool Arith Lia.
From Verif.Model Require Import Py PyFloat Utilities Dicts Particle Reaction Field Section Entry.
From Verif.Spec Require Import Text Exfor.
From Verif.Proofs Require Import StrLemmas UtilLemmas NumLemmas IntLemmas DictLemmas ReactionLemmas FieldLemmas BibLemmas DataLemmas.
Import ListNotations.
Local Open Scope list_scope.
Local Open Scope nat_scope.

(** ** Cutting *)

Lemma entry_chunkify_iff : forall lines bs,
  entry_chunkify lines = bs <-> blocks (keyword_line "SUBENT") (keyword_line "ENDSUBENT") lines bs.
Proof. intros. unfold entry_chunkify. apply chunkify_lines_iff; intro; apply keyword_line_iff. Qed.

Lemma smem_sections : forall l, smem (strip (slice l 0 11)) section_names = true <->
  keyword_line "BIB" l \/ keyword_line "DATA" l \/ keyword_line "COMMON" l.
Proof.
  intro l. unfold smem, section_names. cbn [existsb]. rewrite !orb_true_iff.
  rewrite <- !keyword_line_iff. intuition discriminate.
Qed.

Lemma subentry_chunkify_iff : forall lines bs,
  subentry_chunkify lines = bs <->
  blocks (fun l => keyword_line "BIB" l \/ keyword_line "DATA" l \/ keyword_line "COMMON" l)
         (fun l => columns 0 3 l = list_ascii_of_string "END") lines bs.
Proof.
  intros. unfold subentry_chunkify. apply chunkify_lines_iff; intro l; [apply smem_sections|].
  rewrite str_eqb_eq. unfold slice, columns. cbn [Nat.sub]. rewrite !skipn_O, firstn_firstn. reflexivity.
Qed.

(** ** Looking up *)

Lemma digits_text_repeat0 : forall ds k, value10 (repeat 0%N k ++ ds) = value10 ds.
Proof. intros. apply value10_zeros. Qed.

Lemma three_digits_of : forall ds, is_digits ds -> ds <> [] -> length ds <= 3 ->
  zfill 3 (digits_text ds) = three_digits (N.to_nat (value10 ds)).
Proof.
  intros ds D NE L. rewrite zfill_digits by auto. unfold three_digits. f_equal.
  assert (G : forall a b c, (a < 10)%N -> (b < 10)%N -> (c < 10)%N ->
    [a; b; c] = [N.of_nat (N.to_nat (a * 100 + b * 10 + c) / 100); N.of_nat (N.to_nat (a * 100 + b * 10 + c) / 10 mod 10);
                 N.of_nat (N.to_nat (a * 100 + b * 10 + c) mod 10)]).
  { intros a b c Ha Hb Hc.
    replace (N.to_nat (a * 100 + b * 10 + c)) with (N.to_nat a * 100 + N.to_nat b * 10 + N.to_nat c) by lia.
    set (x := N.to_nat a). set (y := N.to_nat b). set (z := N.to_nat c).
    assert (E1 : (x * 100 + y * 10 + z) / 100 = x) by (symmetry; apply (Nat.div_unique _ 100 x (y * 10 + z)); subst x y z; lia).
    assert (E2 : (x * 100 + y * 10 + z) / 10 = x * 10 + y) by (symmetry; apply (Nat.div_unique _ 10 (x * 10 + y) z); subst x y z; lia).
    assert (E3 : (x * 10 + y) mod 10 = y) by (symmetry; apply (Nat.mod_unique _ 10 x y); subst x y z; lia).
    assert (E4 : (x * 100 + y * 10 + z) mod 10 = z) by (symmetry; apply (Nat.mod_unique _ 10 (x * 10 + y) z); subst x y z; lia).
    rewrite E1, E2, E3, E4. subst x y z. now rewrite !N2Nat.id. }
  destruct ds as [|a [|b [|c [|d ds]]]]; cbn [length Nat.sub repeat app] in *; try lia; try contradiction;
    unfold is_digits in D; repeat match goal with H : Forall _ (_ :: _) |- _ => inversion H; clear H; subst end;
    unfold value10; cbn [fold_left].
  - rewrite (G 0 0 a)%N at 1 by lia. replace (0 * 100 + 0 * 10 + a)%N with (0 * 10 + a)%N by lia. reflexivity.
  - rewrite (G 0 a b)%N at 1 by lia. replace (0 * 100 + a * 10 + b)%N with ((0 * 10 + a) * 10 + b)%N by lia. reflexivity.
  - rewrite (G a b c)%N at 1 by lia. replace (a * 100 + b * 10 + c)%N with (((0 * 10 + a) * 10 + b) * 10 + c)%N by lia. reflexivity.
Qed.

Lemma three_digits_length : forall k, length (three_digits k) = 3.
Proof. reflexivity. Qed.

Lemma getitem_short : forall n ds, is_digits ds -> ds <> [] -> length ds <= 3 -> length (n_accnum n) = 5 ->
  entry_getitem n (EStr (digits_text ds)) = entry_getitem n (EStr (n_accnum n ++ three_digits (N.to_nat (value10 ds)))).
Proof.
  intros n ds D NE L A. unfold entry_getitem. cbn [key_text].
  rewrite app_length, A, three_digits_length. cbn [Nat.eqb Nat.add].
  assert (LD : length (digits_text ds) = length ds) by apply map_length. rewrite LD.
  replace (length ds =? 8) with false by (symmetry; apply Nat.eqb_neq; lia).
  replace (length ds <=? 3) with true by (symmetry; apply Nat.leb_le; lia).
  rewrite three_digits_of by auto. reflexivity.
Qed.

Lemma getitem_int : forall n k, k < 1000 -> length (n_accnum n) = 5 ->
  entry_getitem n (EInt (Z.of_nat k)) = entry_getitem n (EStr (n_accnum n ++ three_digits k)).
Proof.
  intros n k K A.
  assert (E : z_to_str (Z.of_nat k) = n_to_str (N.of_nat k)).
  { unfold z_to_str. destruct k as [|k]; [reflexivity|]. cbn [Z.of_nat N.of_nat]. reflexivity. }
  destruct (n_to_str_spec (N.of_nat k)) as (ds & Q & D & NE & V).
  assert (L : length ds <= 3).
  { assert (X := n_to_str_length 3 (N.of_nat k) ltac:(lia) ltac:(change (10 ^ N.of_nat 3)%N with 1000%N; lia)).
    rewrite Q in X. unfold digits_text in X. now rewrite map_length in X. }
  replace k with (N.to_nat (value10 ds)) at 2 by (rewrite V; lia).
  rewrite <- getitem_short by auto. unfold entry_getitem. cbn [key_text]. now rewrite E, Q.
Qed.

Lemma getitem_other : forall n s, length s <> 8 -> 3 < length s -> entry_getitem n (EStr s) = Raise KeyError.
Proof.
  intros n s H1 H2. unfold entry_getitem. cbn [key_text].
  replace (length s =? 8) with false by (symmetry; now apply Nat.eqb_neq).
  replace (length s <=? 3) with false by (symmetry; apply Nat.leb_gt; lia). reflexivity.
Qed.

Lemma entry_ok : forall e raw n, X4Entry e raw = Ok n -> length (n_accnum n) = 5 /\
  extractX4EntryIndex raw = Some (n_accnum n) /\
  fold_res (fun d x => s <- X4SubEntry e x ;; Ok (dset tag_eqb (s_accnum s) s d)) raw [] = Ok (n_subs n).
Proof.
  intros e raw n H. unfold X4Entry in H. destruct (extractX4EntryIndex raw) as [a|]; [|discriminate].
  destruct (length a =? 5) eqn:E; [|discriminate]. cbn [negb] in H. apply bind_ok in H. destruct H as (d & F & H).
  injection H as <-. cbn. apply Nat.eqb_eq in E. auto.
Qed.

Lemma fold_entry_spec : forall e raw d d',
  fold_res (fun d x => s <- X4SubEntry e x ;; Ok (dset tag_eqb (s_accnum s) s d)) raw d = Ok d' ->
  (forall x, In x raw -> exists s, X4SubEntry e x = Ok s) /\
  forall k s, dget tag_eqb k d' = Some s <->
    (exists x, last_such (fun x => exists s', X4SubEntry e x = Ok s' /\ s_accnum s' = k) raw x /\ X4SubEntry e x = Ok s) \/
    (Forall (fun x => ~ exists s', X4SubEntry e x = Ok s' /\ s_accnum s' = k) raw /\ dget tag_eqb k d = Some s).
Proof.
  intros e raw. induction raw as [|x raw IH]; intros d d' H.
  - injection H as <-. split; [intros x []|]. intros k s. split.
    + intro G. right. split; [constructor|exact G].
    + intros [(x & (a & b & E & _) & _)|[_ G]]; [destruct a; discriminate|exact G].
  - cbn [fold_res] in H. apply bind_ok in H. destruct H as (d1 & S & H). apply bind_ok in S. destruct S as (s0 & S & E).
    injection E as <-. destruct (IH _ _ H) as [A G]. split.
    { intros y [<-|I]; eauto. }
    intros k s. rewrite G, dget_dset by apply tag_eqb_eq.
    destruct (tag_eqb k (s_accnum s0)) eqn:Q.
    + apply tag_eqb_eq in Q. split.
      * intros [(y & (a & b & E & P & F) & Y)|[F E]].
        -- left. exists y. split; [exists (x :: a), b; rewrite E; auto|exact Y].
        -- injection E as <-. left. exists x. split; [|exact S]. exists [], raw. split; [reflexivity|]. split; eauto.
      * intros [(y & (a & b & E & P & F) & Y)|[F _]].
        -- destruct a as [|z a]; cbn in E; injection E as E1 E2.
           ++ subst. right. split; [exact F|]. congruence.
           ++ left. exists y. split; [exists a, b; auto|exact Y].
        -- exfalso. apply Forall_inv in F. apply F. eauto.
    + assert (NQ : s_accnum s0 <> k) by (intro C; assert (tag_eqb k (s_accnum s0) = true) by (apply tag_eqb_eq; auto); congruence).
      assert (NX : ~ exists s', X4SubEntry e x = Ok s' /\ s_accnum s' = k).
      { intros (s' & S' & C). rewrite S in S'. injection S' as <-. contradiction. }
      split.
      * intros [(y & (a & b & E & P & F) & Y)|[F E]].
        -- left. exists y. split; [exists (x :: a), b; rewrite E; auto|exact Y].
        -- right. auto.
      * intros [(y & (a & b & E & P & F) & Y)|[F E]].
        -- destruct a as [|z a]; cbn in E; injection E as E1 E2.
           ++ subst. contradiction.
           ++ left. exists y. split; [exists a, b; auto|exact Y].
        -- right. split; [now apply Forall_inv_tail in F|exact E].
Qed.

Lemma entry_lookup : forall e raw n k s, X4Entry e raw = Ok n -> length k = 8 ->
  entry_getitem n (EStr k) = Ok s <->
  exists x, last_such (fun x => exists s', X4SubEntry e x = Ok s' /\ s_accnum s' = Some k) raw x /\ X4SubEntry e x = Ok s.
Proof.
  intros e raw n k s H L. apply entry_ok in H. destruct H as (_ & _ & F).
  destruct (fold_entry_spec _ _ _ _ F) as [_ G]. unfold entry_getitem. cbn [key_text]. rewrite L. cbn [Nat.eqb].
  assert (O : of_option KeyError (dget tag_eqb (Some k) (n_subs n)) = Ok s <-> dget tag_eqb (Some k) (n_subs n) = Some s).
  { destruct (dget tag_eqb (Some k) (n_subs n)); cbn; split; congruence. }
  rewrite O, G. split; [intros [A|[_ A]]; [exact A|discriminate]|auto].
Qed.

Lemma entry_all_parsed : forall e raw n x, X4Entry e raw = Ok n -> In x raw -> exists s, X4SubEntry e x = Ok s.
Proof. intros e raw n x H I. apply entry_ok in H. destruct H as (_ & _ & F). apply (fold_entry_spec _ _ _ _ F). exact I. Qed.

(** The number of a subentry: columns 15-22 of its first SUBENT line. *)

Lemma words_surround : forall b s c ws, blank b -> blank c -> words s ws -> words (b ++ s ++ c) ws.
Proof.
  intros b s c ws B C H. revert b B. induction H as [a A|a w A N F|a w d rest ws A N F D R IH]; intros b B.
  - apply words_nil. unfold blank in *. rewrite !Forall_app. auto.
  - destruct C as [|c0 c C0 C].
    + rewrite app_nil_r. rewrite app_assoc. apply words_last; auto. now apply Forall_app.
    + replace (b ++ (a ++ w) ++ c0 :: c) with ((b ++ a) ++ w ++ c0 :: c) by now rewrite !app_assoc.
      apply words_cons; auto; [now apply Forall_app|]. now apply words_nil.
  - replace (b ++ (a ++ w ++ d :: rest) ++ c) with ((b ++ a) ++ w ++ d :: (rest ++ c)).
    + apply words_cons; auto; [now apply Forall_app|]. apply (IH []). constructor.
    + rewrite <- !app_assoc. cbn [app]. reflexivity.
Qed.

Lemma split_ws_strip : forall l, split_ws (strip l) = split_ws l.
Proof.
  intro l. destruct (strip_trimmed l) as (a & b & E & Ha & Hb & _). rewrite E at 2. symmetry. apply words_split.
  apply words_surround; auto. apply split_words.
Qed.

Lemma subent_line_iff : forall l, subent_line l <->
  match split_ws l with w :: _ => str_eqb w (lit "SUBENT") | [] => false end = true.
Proof.
  intro l. split.
  - intros (ws & W). apply words_split in W. rewrite W. apply str_eqb_refl.
  - destruct (split_ws l) as [|w ws] eqn:E; [discriminate|]. intro Q. apply str_eqb_eq in Q. subst w.
    exists ws. assert (W := split_words l). rewrite E in W. exact W.
Qed.

Lemma subentry_index : forall lines a, extractX4SubEntryIndex lines = Some a <->
  exists pre l post, lines = pre ++ l :: post /\ Forall (fun x => ~ subent_line x) pre /\ subent_line l /\ a = columns 14 22 l.
Proof.
  induction lines as [|l lines IH]; intro a.
  - cbn. split; [discriminate|]. intros (pre & x & post & E & _). destruct pre; discriminate.
  - cbn [extractX4SubEntryIndex]. rewrite split_ws_strip. assert (I := subent_line_iff l).
    assert (STEP : (if match split_ws l with w :: _ => str_eqb w (lit "SUBENT") | [] => false end
                    then Some (slice l 14 22) else extractX4SubEntryIndex lines)
             = match split_ws l with
               | [] => extractX4SubEntryIndex lines
               | w :: _ => if str_eqb w (lit "SUBENT") then Some (slice l 14 22) else extractX4SubEntryIndex lines end).
    { now destruct (split_ws l). }
    rewrite <- STEP. clear STEP. destruct (match split_ws l with w :: _ => _ | [] => false end).
    + assert (S : subent_line l) by now apply I. split.
      * intro E. injection E as <-. exists [], l, lines. repeat split; auto.
      * intros (pre & x & post & E & F & _ & ->). destruct pre as [|y pre]; cbn in E; injection E as E1 E2; subst.
        -- reflexivity.
        -- apply Forall_inv in F. contradiction.
    + assert (S : ~ subent_line l) by (intro S; apply I in S; discriminate). rewrite IH. split.
      * intros (pre & x & post & -> & F & L & ->). exists (l :: pre), x, post. repeat split; auto.
      * intros (pre & x & post & E & F & L & ->). destruct pre as [|y pre]; cbn in E; injection E as E1 E2; subst.
        -- contradiction.
        -- exists pre, x, post. apply Forall_inv_tail in F. auto.
Qed.

Lemma subentry_accnum : forall e text s, X4SubEntry e text = Ok s ->
  s_accnum s = extractX4SubEntryIndex (split_char nl text).
Proof.
  intros e text s H. unfold X4SubEntry, X4SubEntry_lines in H. apply bind_ok in H. destruct H as (d & _ & H).
  now injection H as <-.
Qed.

(** ** deleted *)
Lemma never_deleted : forall n, deleted n <> Ok true.
Proof.
  intros n H. unfold deleted in H. apply bind_ok in H. destruct H as (s & _ & H). apply bind_ok in H. destruct H as (b & _ & H).
  destruct (bib_field b "HISTORY") as [[f|]|]; discriminate.
Qed.

(** ** Metadata *)
Lemma dset_same : forall (K V : Type) (eqb : K -> K -> bool), (forall a b, eqb a b = true <-> a = b) ->
  forall k (v : V) d, dget eqb k d = Some v -> dset eqb k v d = d.
Proof.
  intros K V eqb H k v d. induction d as [|[q w] d IH]; intro G; [discriminate|]. cbn in *.
  destruct (eqb k q) eqn:E.
  - injection G as ->. reflexivity.
  - now rewrite IH.
Qed.

Lemma meta_keeps_bib : forall b sub m b', X4BibMetaData b sub = Ok (m, b') -> bib_field b "TITLE" <> None -> b' = b.
Proof.
  intros b sub m b' H T. unfold X4BibMetaData in H.
  apply bind_ok in H. destruct H as (au & _ & H). apply bind_ok in H. destruct H as (ins & _ & H).
  apply bind_ok in H. destruct H as ((ti & b1) & E & H).
  apply bind_ok in H. destruct H as (((re & pu) & ye) & _ & H). injection H as _ <-.
  destruct (bib_field b "TITLE") as [[[]|]|]; try discriminate; try contradiction; now injection E as _ <-.
Qed.

Lemma getitem_one : forall n, entry_getitem n (EInt 1) = of_option KeyError (dget tag_eqb (Some (n_accnum n ++ lit "001")) (n_subs n)).
Proof. intro n. reflexivity. Qed.

Lemma meta_keeps_entry : forall n r n' s b, X4EntryMetaData n = Ok (r, n') ->
  entry_getitem n (EInt 1) = Ok s -> sub_bib s = Ok b -> bib_field b "TITLE" <> None -> n' = n.
Proof.
  intros n r n' s b H G B T. unfold X4EntryMetaData in H.
  apply bind_ok in H. destruct H as (de & _ & H). apply bind_ok in H. destruct H as (ks & _ & H).
  rewrite G in H. cbn [bind] in H. rewrite B in H. cbn [bind] in H.
  apply bind_ok in H. destruct H as ((m & b') & M & H). injection H as _ <-.
  apply meta_keeps_bib in M; auto. subst b'.
  assert (S : sub_set_bib s b = s).
  { unfold sub_set_bib. rewrite (dset_same _ _ str_eqb str_eqb_eq); [now destruct s|].
    unfold sub_bib in B. destruct (dget str_eqb (lit "BIB") (s_dict s)) as [[x|]|]; try discriminate. now injection B as ->. }
  rewrite S. rewrite (dset_same _ _ tag_eqb tag_eqb_eq); [now destruct n|].
  rewrite getitem_one in G. now apply of_option_ok in G.
Qed.

Lemma meta_other_fields : forall b subent m b', X4BibMetaData b subent = Ok (m, b') ->
  b_keys b' = b_keys b /\
  forall k, k <> Some (lit "TITLE") -> dget tag_eqb k (b_dict b') = dget tag_eqb k (b_dict b).
Proof.
  intros b subent m b' H. unfold X4BibMetaData in H. apply bind_ok in H. destruct H as (a & _ & H).
  apply bind_ok in H. destruct H as (i & _ & H). apply bind_ok in H. destruct H as ((t & b2) & T & H).
  apply bind_ok in H. destruct H as (r & _ & H).
  assert (E : b' = b2).
  { destruct r as [[? ?] ?]. injection H as _ <-. reflexivity. }
  subst b2. destruct (bib_field b "TITLE") as [[f|]|] eqn:F.
  - destruct f; try discriminate. injection T as _ <-. auto.
  - injection T as _ <-. auto.
  - injection T as _ <-. cbn [b_keys b_dict]. split; [reflexivity|]. intros k K. rewrite (dget_dset _ _ tag_eqb tag_eqb_eq).
    match goal with |- (if ?x then _ else _) = _ => destruct x eqn:Q end; [apply tag_eqb_eq in Q; contradiction|reflexivity].
Qed.

(** ** Printed numbers *)
Lemma split_char_first : forall c a b, ~ In c a -> exists rest, split_char c (a ++ c :: b) = a :: rest.
Proof.
  intros c a b H. induction a as [|x a IH].
  - cbn [app split_char]. rewrite Ascii.eqb_refl. eauto.
  - cbn [app split_char]. destruct (Ascii.eqb_spec x c) as [->|N]; [exfalso; apply H; now left|].
    destruct IH as (rest & ->); [intro I; apply H; now right|]. eauto.
Qed.

Lemma subentry_repr_number : forall e s a t s', subentry_repr s = Ok t -> s_accnum s = Some a -> length a = 8 ->
  ~ In nl a -> ~ blank a -> X4SubEntry e t = Ok s' ->
  s_accnum s' = Some (skipn 3 a ++ lit "   ") /\ s_accnum s' <> Some a.
Proof.
  intros e s a t s' R A L N B H. apply subentry_accnum in H.
  unfold subentry_repr in R. rewrite A in R. cbn [of_option bind] in R. apply bind_ok in R. destruct R as (rs & _ & R).
  injection R as <-.
  set (hd := ljust 11 (lit "SUBENT") ++ ljust 11 a) in *.
  assert (NH : ~ In nl hd).
  { unfold hd, ljust. rewrite !in_app_iff. intros [[I|I]|[I|I]]; auto.
    - cbn in I. repeat (destruct I as [I|I]; [discriminate|]). destruct I.
    - now apply sp_not_nl in I.
    - now apply sp_not_nl in I. }
  match type of H with _ = extractX4SubEntryIndex (split_char nl ?x) =>
    assert (E : exists tail, x = hd ++ nl :: tail) by (eexists; unfold hd; rewrite <- !app_assoc; reflexivity) end.
  destruct E as (tail & E). rewrite E in H. destruct (split_char_first nl hd tail NH) as (rest & Q). rewrite Q in H.
  assert (W : subent_line hd).
  { exists (split_ws (repeat sp 4 ++ ljust 11 a)).
    change hd with ([] ++ lit "SUBENT" ++ sp :: (repeat sp 4 ++ ljust 11 a)). apply words_cons.
    - constructor.
    - discriminate.
    - apply no_space_white. intros c I. cbn in I. repeat (destruct I as [<-|I]; [reflexivity|]). destruct I.
    - apply is_space_white. reflexivity.
    - apply split_words. }
  assert (I : extractX4SubEntryIndex (hd :: rest) = Some (columns 14 22 hd)).
  { apply subentry_index. exists [], hd, rest. repeat split; auto. }
  rewrite I in H.
  assert (C : columns 14 22 hd = skipn 3 a ++ lit "   ").
  { unfold hd, ljust. rewrite L. destruct a as [|a1 [|a2 [|a3 [|a4 [|a5 [|a6 [|a7 [|a8 [|a9 a]]]]]]]]]; try discriminate. reflexivity. }
  rewrite H, C. split; [reflexivity|]. intro X. injection X as X. apply B.
  destruct a as [|a1 [|a2 [|a3 [|a4 [|a5 [|a6 [|a7 [|a8 [|a9 a]]]]]]]]]; try discriminate.
  cbn in X. injection X. intros. subst. repeat (apply Forall_cons; [apply is_space_white; reflexivity|]). apply Forall_nil.
Qed.

Lemma entry_repr_refused : forall e n t, entry_repr n = Ok t -> length (n_accnum n) = 5 -> ~ In nl (n_accnum n) ->
  X4Entry e (split_char nl t) = Raise KeyError.
Proof.
  intros e n t R L N. unfold entry_repr in R. apply bind_ok in R. destruct R as (ks & _ & R).
  apply bind_ok in R. destruct R as (rs & _ & R). injection R as <-.
  set (a := n_accnum n) in *. set (hd := ljust 11 (lit "ENTRY") ++ ljust 11 a) in *.
  assert (NH : ~ In nl hd).
  { unfold hd, ljust. rewrite !in_app_iff. intros [[I|I]|[I|I]]; auto.
    - cbn in I. repeat (destruct I as [I|I]; [discriminate|]). destruct I.
    - now apply sp_not_nl in I.
    - now apply sp_not_nl in I. }
  match goal with |- X4Entry e (split_char nl ?x) = _ =>
    assert (E : exists tail, x = hd ++ nl :: tail) by (eexists; unfold hd; rewrite <- !app_assoc; reflexivity) end.
  destruct E as (tail & E). rewrite E. destruct (split_char_first nl hd tail NH) as (rest & ->).
  unfold X4Entry. cbn [extractX4EntryIndex].
  assert (W : split_ws hd = lit "ENTRY" :: split_ws (repeat sp 5 ++ ljust 11 a)).
  { apply words_split. change hd with ([] ++ lit "ENTRY" ++ sp :: (repeat sp 5 ++ ljust 11 a)). apply words_cons.
    - constructor.
    - discriminate.
    - apply no_space_white. intros c I. cbn in I. repeat (destruct I as [<-|I]; [reflexivity|]). destruct I.
    - apply is_space_white. reflexivity.
    - apply split_words. }
  assert (S : str_eqb (strip hd) [] = false).
  { destruct (str_eqb (strip hd) []) eqn:X; auto. apply str_eqb_eq in X.
    assert (Y := split_ws_strip hd). rewrite X, W in Y. discriminate. }
  rewrite S, W. change (str_eqb (lit "ENTRY") (lit "ENTRY")) with true. cbn iota.
  assert (C : slice hd 14 22 = skipn 3 a ++ repeat sp 6).
  { unfold hd, ljust. rewrite L. destruct a as [|a1 [|a2 [|a3 [|a4 [|a5 [|a6 b]]]]]]; try discriminate. reflexivity. }
  rewrite C.
  assert (LS : length (strip (skipn 3 a ++ repeat sp 6)) <= 2).
  { rewrite <- (app_nil_l (skipn 3 a ++ _)). rewrite strip_surround; [|constructor|apply blank_repeat_sp].
    etransitivity; [apply strip_length|]. rewrite skipn_length. lia. }
  replace (length (strip (skipn 3 a ++ repeat sp 6)) =? 5) with false by (symmetry; apply Nat.eqb_neq; lia). reflexivity.
Qed.
