(** The data sets of an entry. *)
From Coq Require Import String List Ascii NArith ZArith Bool Arith Lia.
From Coq Require Import Floats.SpecFloat.
From Verif.Model Require Import Py PyFloat Utilities Dicts Particle Reaction Field Section Entry Columns Dataset.
From Verif.Spec Require Import Text Tables Exfor DataSets Merging.
From Verif.Proofs Require Import StrLemmas ReactionLemmas DictLemmas FieldLemmas BibLemmas DataLemmas MonitorLemmas EntryLemmas UnitLemmas ValueLemmas SimplifyLemmas MergeLemmas DatasetLemmas.
Import ListNotations.
Local Open Scope string_scope.
Local Open Scope list_scope.
Local Open Scope nat_scope.

(** ** Dictionaries filled in a loop *)

Lemma key_eqb_eq : forall a b, key_eqb a b = true <-> a = b.
Proof.
  intros [[x y] z] [[x' y'] z']. unfold key_eqb. rewrite !andb_true_iff, str_eqb_eq, tag_eqb_eq, Ascii.eqb_eq. split.
  - intros [[-> ->] ->]. reflexivity.
  - intros E. injection E; intros; subst; auto.
Qed.

Definition put {V} (d : list (ds_key * V)) (a : ds_key * option V) : list (ds_key * V) :=
  match snd a with Some v => dset key_eqb (fst a) v d | None => d end.
Definition pick {V} (k : ds_key) (a : ds_key * option V) : option V := if key_eqb k (fst a) then snd a else None.

Lemma last_some_app : forall (A : Type) (l m : list (option A)),
  last_some (l ++ m) = match last_some m with Some x => Some x | None => last_some l end.
Proof.
  induction l as [|x l IH]; intros m; cbn [app last_some]; [now destruct (last_some m)|]. rewrite IH. now destruct (last_some m).
Qed.
Lemma last_some_none : forall (A : Type) (l : list (option A)), Forall (fun x => x = None) l -> last_some l = None.
Proof. induction 1 as [|x l -> _ IH]; cbn [last_some]; [reflexivity|]. now rewrite IH. Qed.

Lemma dget_put : forall (V : Type) (l : list (ds_key * option V)) d k,
  dget key_eqb k (fold_left put l d) = match last_some (map (pick k) l) with Some v => Some v | None => dget key_eqb k d end.
Proof.
  intros V. induction l as [|a l IH] using rev_ind; intros d k; [reflexivity|].
  rewrite fold_left_app, map_app. cbn [fold_left map]. rewrite last_some_snoc. unfold put at 1. unfold pick at 1.
  destruct a as [k' [v|]]; cbn [fst snd].
  - rewrite (dget_dset _ _ _ key_eqb_eq). destruct (key_eqb k k') eqn:E.
    + reflexivity.
    + apply IH.
  - destruct (key_eqb k k'); apply IH.
Qed.

(** ** What a subentry contributes *)

Lemma dset_again : forall (K V : Type) (eqb : K -> K -> bool), (forall a b, eqb a b = true <-> a = b) ->
  forall k (v : V) d, dget eqb k (dset eqb k v d) = Some v.
Proof. intros K V eqb H k v d. rewrite (dget_dset _ _ _ H). now rewrite (proj2 (H k k) eq_refl). Qed.
Lemma dset_else : forall (K V : Type) (eqb : K -> K -> bool), (forall a b, eqb a b = true <-> a = b) ->
  forall k k' (v : V) d, k <> k' -> dget eqb k' (dset eqb k v d) = dget eqb k' d.
Proof.
  intros K V eqb H k k' v d N. rewrite (dget_dset _ _ _ H). destruct (eqb k' k) eqn:E; [apply H in E; now subst|reflexivity].
Qed.

(** The metadata, and the BIB afterwards. *)
Lemma meta_after : forall b a m b', X4BibMetaData b a = Ok (m, b') ->
  X4BibMetaData b' a = Ok (m, b') /\ (forall k, k <> "TITLE" -> bib_field b' k = bib_field b k).
Proof.
  intros b a m b' H. unfold X4BibMetaData in H.
  apply bind_ok in H. destruct H as (au & Ea & H). apply bind_ok in H. destruct H as (ins & Ei & H).
  apply bind_ok in H. destruct H as ((ti & b1) & Et & H). apply bind_ok in H. destruct H as (((re & pu) & ye) & Er & H).
  injection H as <- <-.
  assert (O : forall k, k <> "TITLE" -> bib_field b1 k = bib_field b k).
  { intros k N. destruct (bib_field b "TITLE") as [[f|]|] eqn:T; [destruct f; try discriminate; now injection Et as _ <-|now injection Et as _ <-|].
    injection Et as _ <-. unfold bib_field. cbn [b_dict]. apply (dset_else _ _ _ tag_eqb_eq). intros X. injection X as X. apply N.
    unfold lit in X. rewrite <- (string_of_list_ascii_of_string k), <- X. reflexivity. }
  split; [|exact O]. unfold X4BibMetaData. rewrite (O "AUTHOR"), (O "INSTITUTE"), (O "REFERENCE") by discriminate. rewrite Ea. cbn [bind]. rewrite Ei. cbn [bind].
  assert (T1 : match bib_field b1 "TITLE" with
     | None => Ok (lit "None", mkBib (dset tag_eqb (Some (lit "TITLE")) None (b_dict b1)) (b_keys b1))
     | Some None => Ok (lit "None", b1) | Some (Some (FTitle f)) => Ok (title_str f, b1) | Some (Some _) => Raise OutsideModel end = Ok (ti, b1)).
  { destruct (bib_field b "TITLE") as [[f|]|] eqn:T.
    - destruct f; try discriminate. injection Et as <- <-. now rewrite T.
    - injection Et as <- <-. now rewrite T.
    - injection Et as <- <-. unfold bib_field. cbn [b_dict b_keys]. now rewrite (dset_again _ _ _ tag_eqb_eq). }
  rewrite T1. cbn [bind]. rewrite Er. reflexivity.
Qed.

Definition good_sub (s : subentry) : Prop := NoDup (dkeys (reactions_of s)).

Lemma info_spec : forall s info s', sub_information s (s_accnum s) = Ok (info, s') ->
  info = mkInfo (metadata_of s) (reactions_of s) (monitors_of s) (sub_data s "COMMON") /\
  s_accnum s' = s_accnum s /\ metadata_of s' = metadata_of s /\ reactions_of s' = reactions_of s /\ monitors_of s' = monitors_of s /\
  (forall k, k <> "BIB" -> sub_data s' k = sub_data s k) /\
  sub_information s' (s_accnum s) = Ok (info, s').
Proof.
  intros s info s' H. unfold sub_information in H. apply bind_ok in H. destruct H as ((((m & rs) & ms) & s1) & E & H).
  injection H as <- <-. unfold sub_section in E. unfold metadata_of, reactions_of, monitors_of, bib_of.
  change (list_ascii_of_string "BIB") with (lit "BIB"). destruct (dget str_eqb (lit "BIB") (s_dict s)) as [[b|d]|] eqn:B; [|discriminate|].
  - apply bind_ok in E. destruct E as (a & Ea & E). apply bind_ok in E. destruct E as ((m0 & b') & Em & E).
    apply bind_ok in E. destruct E as (rs0 & Er & E). apply bind_ok in E. destruct E as (ms0 & Ems & E). injection E as <- <- <- <-.
    destruct (s_accnum s) as [a0|] eqn:Acc; [|discriminate]. injection Ea as <-. rewrite Em.
    destruct (meta_after _ _ _ _ Em) as [Again O].
    unfold sub_set_bib. cbn [s_dict s_accnum]. rewrite Acc. rewrite (dset_again _ _ _ str_eqb_eq). rewrite Again, !O by discriminate.
    assert (R : match bib_field b "REACTION" return reactions_dict with Some (Some (FReaction _ rs)) => rs | _ => [] end = rs0).
    { destruct (bib_field b "REACTION") as [[[]|]|]; try discriminate; now injection Er as <-. }
    assert (M : match bib_field b "MONITOR" return monitors_dict with Some (Some (FMonitor _ ms)) => ms | _ => [] end = ms0).
    { destruct (bib_field b "MONITOR") as [[[]|]|]; try discriminate; now injection Ems as <-. }
    rewrite R, M. split; [reflexivity|]. split; [reflexivity|]. split; [reflexivity|]. split; [reflexivity|]. split; [reflexivity|].
    assert (D : forall k, k <> "BIB" -> sub_data (mkSub (Some a0) (dset str_eqb (lit "BIB") (SBib b') (s_dict s))) k = sub_data s k).
    { intros k N. unfold sub_data, sub_section. cbn [s_dict]. rewrite (dset_else _ _ _ str_eqb_eq); [reflexivity|].
      intros X. apply N. unfold lit in X. rewrite <- (string_of_list_ascii_of_string k), <- X. reflexivity. }
    split; [exact D|]. unfold sub_information, sub_section. cbn [s_dict]. rewrite (dset_again _ _ _ str_eqb_eq). cbn [of_option bind].
    rewrite Again. cbn [bind]. rewrite !O by discriminate. rewrite Er. cbn [bind]. rewrite Ems. cbn [bind].
    rewrite D by discriminate. do 3 f_equal. unfold sub_set_bib. cbn [s_accnum s_dict]. f_equal.
    apply (dset_same _ _ _ str_eqb_eq). apply (dset_again _ _ _ str_eqb_eq).
  - injection E as <- <- <- <-. rewrite B. split; [reflexivity|]. split; [reflexivity|]. split; [reflexivity|]. split; [reflexivity|].
    split; [reflexivity|]. split; [reflexivity|]. unfold sub_information, sub_section. rewrite B. reflexivity.
Qed.

(** ** build_step *)

Definition attempt nm meta common data monitors (pr : ascii * (measurement * ptree)) : res dataset :=
  X4DataSetFactory nm (m_quantity (fst (snd pr))) meta common (Some (snd pr)) (dget Ascii.eqb (fst pr) monitors) data (Some (fst pr)).
Definition attempts nm acc sub meta common data monitors (rs : reactions_dict) : list (ds_key * res dataset) :=
  map (fun pr => ((acc, sub, fst pr), attempt nm meta common data monitors pr)) rs.
Definition oks (l : list (ds_key * res dataset)) : list (ds_key * option dataset) := map (fun a => (fst a, ok_of (Some (snd a)))) l.
Definition exns (l : list (ds_key * res dataset)) : list (ds_key * option exn) := map (fun a => (fst a, exn_of (Some (snd a)))) l.
Definition harmless (a : ds_key * res dataset) : Prop := forall e, snd a = Raise e -> recorded e.

Lemma oks_app : forall l m, oks (l ++ m) = oks l ++ oks m.
Proof. intros. apply map_app. Qed.
Lemma exns_app : forall l m, exns (l ++ m) = exns l ++ exns m.
Proof. intros. apply map_app. Qed.

Lemma build_fold : forall nm acc sub meta common data monitors rs ds errs ds' errs',
  fold_res (build_step nm acc sub meta common data monitors) rs (ds, errs) = Ok (ds', errs') <->
  Forall harmless (attempts nm acc sub meta common data monitors rs) /\
  ds' = fold_left put (oks (attempts nm acc sub meta common data monitors rs)) ds /\
  errs' = fold_left put (exns (attempts nm acc sub meta common data monitors rs)) errs.
Proof.
  intros nm acc sub meta common data monitors. induction rs as [|[p r] rs IH]; intros ds errs ds' errs'.
  - cbn. split; [intros E; injection E as <- <-; auto|intros (_ & -> & ->); reflexivity].
  - cbn [fold_res attempts map oks exns fold_left]. unfold build_step at 1.
    change (X4DataSetFactory nm (m_quantity (fst r)) meta common (Some r) (dget Ascii.eqb p monitors) data (Some p))
      with (attempt nm meta common data monitors (p, r)).
    fold (attempts nm acc sub meta common data monitors rs). fold (oks (attempts nm acc sub meta common data monitors rs)).
    fold (exns (attempts nm acc sub meta common data monitors rs)). cbn [fst snd]. unfold put at 2 4. cbn [fst snd].
    destruct (attempt nm meta common data monitors (p, r)) as [d|x] eqn:A; cbn [ok_of exn_of].
    + cbn [bind]. rewrite IH. split.
      * intros (F & D & E). split; [constructor; [intros e X; discriminate|assumption]|auto].
      * intros (F & D & E). inversion F; auto.
    + assert (G : recorded x -> (bind (Ok (ds, dset key_eqb (acc, sub, p) x errs)) (fold_res (build_step nm acc sub meta common data monitors) rs) = Ok (ds', errs') <->
        Forall harmless (((acc, sub, p), Raise x) :: attempts nm acc sub meta common data monitors rs) /\
        ds' = fold_left put (oks (attempts nm acc sub meta common data monitors rs)) ds /\
        errs' = fold_left put (exns (attempts nm acc sub meta common data monitors rs)) (dset key_eqb (acc, sub, p) x errs))).
      { intros R. cbn [bind]. rewrite IH. split.
        - intros (F & D & E). split; [constructor; [intros e X; cbn in X; congruence|assumption]|auto].
        - intros (F & D & E). inversion F; auto. }
      destruct x; try (apply G; unfold recorded; tauto); clear G;
        (split; [intros E; discriminate|intros (F & _); inversion F as [|? ? Hh ?]; specialize (Hh _ eq_refl); destruct Hh; discriminate]).
Qed.

(** ** subentry_step *)

Definition sub_attempts nm acc (main : sub_info) (ks : option str * subentry) : list (ds_key * res dataset) :=
  let s := snd ks in
  match sub_data s "DATA" with
  | None => []
  | Some data =>
      let meta := [i_meta main; metadata_of s] in
      let common := [option_map (fun c => (0, c)) (i_common main);
                     common_of (if tag_eqb (fst ks) (Some (acc ++ lit "001")) then 0 else 1) s] in
      attempts nm acc (s_accnum s) meta common data (i_monitors main) (i_reactions main) ++
      attempts nm acc (s_accnum s) meta common data (monitors_of s) (reactions_of s)
  end.
Definition info_ok (ks : option str * subentry) : Prop :=
  sub_data (snd ks) "DATA" = None \/ exists i s', sub_information (snd ks) (s_accnum (snd ks)) = Ok (i, s').
Definition after (ks : option str * subentry) : option str * subentry :=
  match sub_data (snd ks) "DATA", sub_information (snd ks) (s_accnum (snd ks)) with
  | Some _, Ok (_, s') => (fst ks, s')
  | _, _ => ks
  end.

Lemma bind_iff : forall (A B : Type) (x : res A) (f : A -> res B) y, bind x f = Ok y <-> exists a, x = Ok a /\ f a = Ok y.
Proof. intros A B [a|e] f y; cbn; split; [eauto|intros (b & E & H); congruence|discriminate|intros (b & E & H); discriminate]. Qed.

Lemma subentry_iff : forall nm acc main ds errs subs ks ds' errs' subs',
  subentry_step nm acc main (ds, errs, subs) ks = Ok (ds', errs', subs') <->
  info_ok ks /\ Forall harmless (sub_attempts nm acc main ks) /\
  ds' = fold_left put (oks (sub_attempts nm acc main ks)) ds /\
  errs' = fold_left put (exns (sub_attempts nm acc main ks)) errs /\ subs' = subs ++ [after ks].
Proof.
  intros nm acc main ds errs subs [k s] ds' errs' subs'. unfold subentry_step, sub_attempts, info_ok, after. cbn [fst snd].
  destruct (sub_data s "DATA") as [data|].
  2: { split; [intros E; injection E as <- <- <-|intros (_ & _ & -> & -> & ->); reflexivity].
       split; [now left|]. split; [constructor|]. repeat split; reflexivity. }
  destruct (sub_information s (s_accnum s)) as [[info s']|x] eqn:I; cbn [bind].
  2: { split; [discriminate|]. intros ([N|(i & s' & N)] & _); discriminate. }
  destruct (info_spec _ _ _ I) as (-> & _). cbn [i_meta i_monitors i_reactions i_common].
  change (option_map (fun c : data_section => ((if tag_eqb k (Some (acc ++ lit "001")) then 0 else 1), c)) (sub_data s "COMMON"))
    with (common_of (if tag_eqb k (Some (acc ++ lit "001")) then 0 else 1) s).
  rewrite oks_app, exns_app, Forall_app, !fold_left_app. rewrite bind_iff. split.
  - intros ((ds1 & errs1) & E1 & E). apply bind_iff in E. destruct E as ((ds2 & errs2) & E2 & E). injection E as <- <- <-.
    apply build_fold in E1. destruct E1 as (F1 & -> & ->). apply build_fold in E2. destruct E2 as (F2 & -> & ->).
    split; [right; eauto|]. split; [split; assumption|]. auto.
  - intros (_ & (F1 & F2) & -> & -> & ->). eexists (_, _). split; [apply build_fold; split; [eassumption|split; reflexivity]|].
    apply bind_iff. eexists (_, _). split; [apply build_fold; split; [eassumption|split; reflexivity]|]. reflexivity.
Qed.

Lemma subentries_iff : forall nm acc main l ds errs subs ds' errs' subs',
  fold_res (subentry_step nm acc main) l (ds, errs, subs) = Ok (ds', errs', subs') <->
  Forall info_ok l /\ Forall harmless (flat_map (sub_attempts nm acc main) l) /\
  ds' = fold_left put (oks (flat_map (sub_attempts nm acc main) l)) ds /\
  errs' = fold_left put (exns (flat_map (sub_attempts nm acc main) l)) errs /\ subs' = subs ++ map after l.
Proof.
  intros nm acc main. induction l as [|ks l IH]; intros ds errs subs ds' errs' subs'.
  - cbn. rewrite app_nil_r. split; [intros E; injection E as <- <- <-; auto 8|intros (_ & _ & -> & -> & ->); reflexivity].
  - cbn [fold_res flat_map map]. rewrite bind_iff, oks_app, exns_app, Forall_app, !fold_left_app. split.
    + intros (((ds1 & errs1) & subs1) & E & R). apply subentry_iff in E. destruct E as (I & F & -> & -> & ->).
      apply IH in R. destruct R as (I' & F' & -> & -> & ->). rewrite <- app_assoc. cbn [app]. auto 10.
    + intros (I & (F & F') & -> & -> & ->). inversion I; subst. eexists (_, _, _). split; [apply subentry_iff; auto|].
      apply IH. rewrite <- app_assoc. auto 10.
Qed.

(** ** Entries *)

Record good_entry (n : entry) : Prop := mkGood {
  g_nodup : NoDup (dkeys (n_subs n));
  g_keys : forall k s, In (k, s) (n_subs n) -> s_accnum s = k;
  g_subs : forall k s, In (k, s) (n_subs n) -> good_sub s }.

Lemma In_dset : forall (K V : Type) (eqb : K -> K -> bool), (forall a b, eqb a b = true <-> a = b) ->
  forall k (v : V) d k' v', In (k', v') (dset eqb k v d) -> (k' = k /\ v' = v) \/ In (k', v') d.
Proof.
  intros K V eqb H k v. induction d as [|[a x] d IH]; intros k' v' I; cbn [dset] in I.
  - destruct I as [I|[]]. injection I as <- <-. auto.
  - destruct (eqb k a) eqn:E.
    + apply H in E. subst a. destruct I as [I|I]; [|right; now right]. injection I as <- <-. auto.
    + destruct I as [I|I]; [right; now left|]. apply IH in I. cbn [In]. tauto.
Qed.

Lemma fold_res_inv : forall (A S : Type) (P : S -> Prop) (f : S -> A -> res S),
  (forall s x s', P s -> f s x = Ok s' -> P s') -> forall l s s', P s -> fold_res f l s = Ok s' -> P s'.
Proof.
  intros A S P f H. induction l as [|x l IH]; intros s s' Ps E; cbn [fold_res] in E; [now injection E as <-|].
  apply bind_ok in E. destruct E as (s1 & E1 & E). eauto.
Qed.

Lemma plain_nodup : forall x f, X4PlainField x = Ok f -> NoDup (dkeys (f_dict f)).
Proof.
  intros x f E. unfold X4PlainField in E. apply bind_ok in E. destruct E as (l & _ & E).
  destruct (fold_left plain_step x (sp, [])) as [p d] eqn:F. injection E as <-. cbn [f_dict].
  assert (G : forall x st, NoDup (dkeys (snd st)) -> NoDup (dkeys (snd (fold_left plain_step x st)))).
  { induction x0 as [|line x0 IH]; intros [q d0] N; cbn [fold_left]; [assumption|]. apply IH.
    unfold plain_step. cbn [snd]. apply (NoDup_dset _ aeq). exact N. }
  specialize (G x (sp, [])). rewrite F in G. apply G. constructor.
Qed.
Lemma reaction_nodup : forall e x f rs, X4ReactionField e x = Ok (f, rs) -> NoDup (dkeys rs).
Proof.
  intros e x f rs E. unfold X4ReactionField in E. apply bind_ok in E. destruct E as (f0 & Ef & E).
  apply bind_ok in E. destruct E as (rs0 & Er & E). injection E as <- <-. apply plain_nodup in Ef.
  replace (dkeys rs0) with (dkeys (f_dict f0)); [assumption|]. apply map_res_Forall2 in Er. clear Ef.
  induction Er as [|pl r l rs H _ IH]; [reflexivity|]. apply bind_ok in H. destruct H as (r0 & _ & H). injection H as <-.
  unfold dkeys in *. cbn [map fst]. now rewrite IH.
Qed.

Definition good_bib (b : bib) : Prop := forall k f rs, In (k, Some (FReaction f rs)) (b_dict b) -> NoDup (dkeys rs).
Lemma bib_good : forall e x b, X4BibSection e x = Ok b -> good_bib b.
Proof.
  intros e x b. unfold X4BibSection. apply fold_res_inv.
  - intros b0 field b1 G E. apply bind_ok in E. destruct E as (tag & _ & E). apply bind_ok in E. destruct E as (f & Ef & E).
    injection E as <-. intros k f0 rs I. cbn [b_dict] in I. apply (In_dset _ _ _ tag_eqb_eq) in I. destruct I as [[_ I]|I]; [|exact (G _ _ _ I)].
    injection I as <-. unfold make_field in Ef.
    repeat match type of Ef with (if ?c then _ else _) = _ => destruct c end;
      try (apply bind_ok in Ef; destruct Ef as (r & Er & Ef); first [discriminate Ef | injection Ef as <- <-; destruct r as [a c]; eapply reaction_nodup; exact Er]); try discriminate.
  - intros k f rs [].
Qed.

Lemma bib_field_in : forall b k f, bib_field b k = Some f -> In (Some (lit k), f) (b_dict b).
Proof. intros b k f E. unfold bib_field in E. apply (dget_In _ tag_eqb_eq) in E. exact E. Qed.
Lemma good_bib_sub : forall s, (forall k b, In (k, SBib b) (s_dict s) -> good_bib b) -> good_sub s.
Proof.
  intros s G. unfold good_sub, reactions_of, bib_of.
  destruct (dget str_eqb (list_ascii_of_string "BIB") (s_dict s)) as [[b|d]|] eqn:B; try constructor.
  apply (dget_In _ str_eqb_eq) in B. specialize (G _ _ B).
  destruct (bib_field b "REACTION") as [[[]|]|] eqn:R; try constructor. apply bib_field_in in R. exact (G _ _ _ R).
Qed.
Lemma sub_good : forall e x s, X4SubEntry e x = Ok s -> good_sub s.
Proof.
  intros e x s E. unfold X4SubEntry, X4SubEntry_lines in E. apply bind_ok in E. destruct E as (d & F & E). injection E as <-.
  apply good_bib_sub. cbn [s_dict]. revert F.
  apply (fold_res_inv _ _ (fun d => forall k b, In (k, SBib b) d -> good_bib b)); [|intros k b []].
  intros d0 sec d1 G E k b I. apply bind_ok in E. destruct E as ([t sc] & Es & E). injection E as <-. cbn [fst snd] in I.
  apply (In_dset _ _ _ str_eqb_eq) in I. destruct I as [[_ I]|I]; [|exact (G _ _ I)]. subst sc.
  unfold make_section in Es.
  repeat match type of Es with
  | (if ?c then _ else _) = _ => destruct c
  | match ?c with _ => _ end = _ => destruct c
  end; try discriminate;
    apply bind_ok in Es; destruct Es as (y & Ey & Es); first [discriminate Es | injection Es as _ <-; eapply bib_good; exact Ey].
Qed.

Lemma entry_good : forall e raw n, X4Entry e raw = Ok n -> good_entry n.
Proof.
  intros e raw n H. apply EntryLemmas.entry_ok in H. destruct H as (_ & _ & F).
  assert (G : NoDup (dkeys (n_subs n)) /\ forall k s, In (k, s) (n_subs n) -> s_accnum s = k /\ good_sub s).
  { revert F. apply (fold_res_inv _ _ (fun d => NoDup (dkeys d) /\ forall k s, In (k, s) d -> s_accnum s = k /\ good_sub s)).
    - intros d x d' (N & K) E. apply bind_ok in E. destruct E as (s & Es & E). injection E as <-.
      split; [now apply (NoDup_dset _ tag_eqb_eq)|]. intros k s0 I. apply (In_dset _ _ _ tag_eqb_eq) in I.
      destruct I as [[-> ->]|I]; [|now apply K]. split; [reflexivity|]. eapply sub_good; eassumption.
    - split; [constructor|]. intros k s []. }
  destruct G as [N K]. constructor; [assumption|intros k s I; now apply K|intros k s I; now apply (K k)].
Qed.

(** ** Looking up *)

Definition picks {V} (g : res dataset -> option V) (k : ds_key) (l : list (ds_key * res dataset)) : option V :=
  last_some (map (fun a => if key_eqb k (fst a) then g (snd a) else None) l).
Definition via {V} (g : res dataset -> option V) (x : option (res dataset)) : option V := match x with Some r => g r | None => None end.

Lemma picks_app : forall V (g : res dataset -> option V) k l m,
  picks g k (l ++ m) = match picks g k m with Some x => Some x | None => picks g k l end.
Proof. intros. unfold picks. now rewrite map_app, last_some_app. Qed.
Lemma picks_none : forall V (g : res dataset -> option V) k l, (forall a, In a l -> fst a <> k) -> picks g k l = None.
Proof.
  intros V g k l H. apply last_some_none. rewrite Forall_forall. intros x I. apply in_map_iff in I. destruct I as (a & <- & I).
  destruct (key_eqb k (fst a)) eqn:E; [|reflexivity]. apply key_eqb_eq in E. exfalso. now apply (H a I).
Qed.

Lemma picks_attempts : forall V (g : res dataset -> option V) nm acc sub meta common data monitors rs p, NoDup (dkeys rs) ->
  picks g (acc, sub, p) (attempts nm acc sub meta common data monitors rs) =
  match dget Ascii.eqb p rs with Some r => g (attempt nm meta common data monitors (p, r)) | None => None end.
Proof.
  intros V g nm acc sub meta common data monitors. induction rs as [|[q r] rs IH]; intros p N; [reflexivity|].
  inversion N as [|? ? Nq N']; subst. cbn [attempts map dget]. fold (attempts nm acc sub meta common data monitors rs).
  change (?a :: ?l) with ([a] ++ l) at 1. rewrite picks_app, (IH p N'). cbn [fst].
  destruct (Ascii.eqb p q) eqn:E.
  - apply Ascii.eqb_eq in E. subst q. destruct (dget Ascii.eqb p rs) as [r'|] eqn:D.
    { exfalso. apply Nq. apply (dget_In _ Ascii.eqb_eq) in D. apply (in_map fst) in D. exact D. }
    unfold picks. cbn [map last_some fst snd]. now rewrite (proj2 (key_eqb_eq _ _) eq_refl).
  - replace (picks g (acc, sub, p) [((acc, sub, q), attempt nm meta common data monitors (q, r))]) with (@None V).
    + now destruct (dget Ascii.eqb p rs) as [r'|]; [destruct (g _)|].
    + symmetry. apply picks_none. intros a [<-|[]]. cbn. intros X. injection X as ->. rewrite Ascii.eqb_refl in E. discriminate.
Qed.

Lemma attempts_keys : forall nm acc sub meta common data monitors rs a, In a (attempts nm acc sub meta common data monitors rs) ->
  exists p, fst a = (acc, sub, p).
Proof. intros nm acc sub meta common data monitors rs a I. apply in_map_iff in I. destruct I as (pr & <- & _). cbn. eauto. Qed.
Lemma sub_attempts_keys : forall nm acc main ks a, In a (sub_attempts nm acc main ks) -> exists p, fst a = (acc, s_accnum (snd ks), p).
Proof.
  intros nm acc main ks a I. unfold sub_attempts in I. destruct (sub_data (snd ks) "DATA"); [|contradiction].
  apply in_app_iff in I. destruct I as [I|I]; eapply attempts_keys; eassumption.
Qed.

Definition main_info (s1 : subentry) : sub_info := mkInfo (metadata_of s1) (reactions_of s1) (monitors_of s1) (sub_data s1 "COMMON").

Lemma picks_sub : forall V (g : res dataset -> option V) nm n s1 s p, good_sub s1 -> good_sub s ->
  picks g (n_accnum n, s_accnum s, p) (sub_attempts nm (n_accnum n) (main_info s1) (s_accnum s, s)) =
  last_some [via g (tried nm n s1 s s1 p); via g (tried nm n s1 s s p)].
Proof.
  intros V g nm n s1 s p G1 G. unfold sub_attempts, tried. cbn [fst snd main_info i_meta i_common i_monitors i_reactions].
  destruct (sub_data s "DATA") as [data|]; [|reflexivity]. rewrite picks_app, !picks_attempts by assumption.
  unfold attempt. cbn [fst snd last_some]. unfold common_of at 1 3. unfold common_id. change (list_ascii_of_string "001") with (lit "001").
  destruct (dget Ascii.eqb p (reactions_of s)) as [r|]; cbn [via]; [destruct (g _); [reflexivity|]|];
    (destruct (dget Ascii.eqb p (reactions_of s1)) as [r1|]; cbn [via]; reflexivity).
Qed.

Lemma picks_flat : forall V (g : res dataset -> option V) nm acc main l sub p,
  (forall k s, In (k, s) l -> s_accnum s = k) -> NoDup (dkeys l) ->
  picks g (acc, sub, p) (flat_map (sub_attempts nm acc main) l) =
  match dget tag_eqb sub l with Some s => picks g (acc, sub, p) (sub_attempts nm acc main (sub, s)) | None => None end.
Proof.
  intros V g nm acc main. induction l as [|[k s] l IH]; intros sub p K N; [reflexivity|]. inversion N as [|? ? Nk N'].
  cbn [flat_map dget]. rewrite picks_app, (IH sub p) by (auto; intros; apply K; now right).
  assert (A : s_accnum s = k) by (apply K; now left).
  destruct (tag_eqb sub k) eqn:E.
  - apply tag_eqb_eq in E. rewrite E in *. destruct (dget tag_eqb k l) as [s'|] eqn:D; [|reflexivity].
    exfalso. apply Nk. apply (dget_In _ tag_eqb_eq) in D. apply (in_map fst) in D. exact D.
  - replace (picks g (acc, sub, p) (sub_attempts nm acc main (k, s))) with (@None V).
    + destruct (dget tag_eqb sub l); [destruct (picks _ _ _); reflexivity|reflexivity].
    + symmetry. apply picks_none. intros a I. apply sub_attempts_keys in I. destruct I as (q & ->). cbn [snd]. rewrite A.
      intros X. injection X as X _. rewrite X in E. rewrite (proj2 (tag_eqb_eq sub sub) eq_refl) in E. discriminate.
Qed.

Lemma dget_oks : forall l ds k, dget key_eqb k (fold_left put (oks l) ds) =
  match picks (fun r => ok_of (Some r)) k l with Some d => Some d | None => dget key_eqb k ds end.
Proof. intros l ds k. rewrite dget_put. unfold picks, oks. rewrite map_map. reflexivity. Qed.
Lemma dget_exns : forall l ds k, dget key_eqb k (fold_left put (exns l) ds) =
  match picks (fun r => exn_of (Some r)) k l with Some d => Some d | None => dget key_eqb k ds end.
Proof. intros l ds k. rewrite dget_put. unfold picks, exns. rewrite map_map. reflexivity. Qed.

(** ** getDataSets *)

Lemma dset_in : forall (K V B : Type) (eqb : K -> K -> bool) (f : K * V -> B), (forall a b, eqb a b = true <-> a = b) ->
  forall k v v' d, dget eqb k d = Some v -> f (k, v') = f (k, v) -> map f (dset eqb k v' d) = map f d.
Proof.
  intros K V B eqb f H k v v'. induction d as [|[a x] d IH]; intros E F; [discriminate|]. cbn [dget dset] in *.
  destruct (eqb k a) eqn:Ek; cbn [map].
  - apply H in Ek. subst a. injection E as ->. now rewrite F.
  - now rewrite IH.
Qed.

Lemma same_attempts : forall nm acc main k s s', s_accnum s' = s_accnum s -> metadata_of s' = metadata_of s -> reactions_of s' = reactions_of s ->
  monitors_of s' = monitors_of s -> (forall k, k <> "BIB" -> sub_data s' k = sub_data s k) ->
  sub_attempts nm acc main (k, s') = sub_attempts nm acc main (k, s).
Proof.
  intros nm acc main k s s' A M R O D. unfold sub_attempts, common_of. cbn [fst snd]. rewrite !D by discriminate. now rewrite A, M, R, O.
Qed.

Lemma flat_map_map : forall (A B : Type) (f : A -> list B) l, flat_map f l = concat (map f l).
Proof. intros. now rewrite flat_map_concat_map. Qed.

Definition all_attempts nm n s1 := flat_map (sub_attempts nm (n_accnum n) (main_info s1)) (n_subs n).
Definition one (n : entry) : option str := Some (n_accnum n ++ lit "001").

Lemma getDataSets_iff : forall nm n errs ds errs' n', good_entry n ->
  getDataSets nm n errs = Ok (ds, errs', n') <->
  exists s1 i1 s1', deleted n = Ok false /\ In (one n, s1) (n_subs n) /\ sub_information s1 (one n) = Ok (i1, s1') /\
    Forall info_ok (n_subs n) /\ Forall harmless (all_attempts nm n s1) /\
    ds = fold_left put (oks (all_attempts nm n s1)) [] /\ errs' = fold_left put (exns (all_attempts nm n s1)) errs /\
    n' = mkEntry (n_accnum n) (map after (dset tag_eqb (one n) s1' (n_subs n))).
Proof.
  intros nm n errs ds errs' n' [N K G]. unfold getDataSets.
  assert (Common : forall s1 i1 s1', In (one n, s1) (n_subs n) -> sub_information s1 (one n) = Ok (i1, s1') ->
    i1 = main_info s1 /\
    flat_map (sub_attempts nm (n_accnum n) (main_info s1)) (dset tag_eqb (one n) s1' (n_subs n)) = all_attempts nm n s1 /\
    (Forall info_ok (dset tag_eqb (one n) s1' (n_subs n)) <-> Forall info_ok (n_subs n))).
  { intros s1 i1 s1' I E. pose proof (K _ _ I) as A. rewrite <- A in E. destruct (info_spec _ _ _ E) as (-> & A' & M & R & O & D & E').
    split; [reflexivity|]. assert (D1 : dget tag_eqb (one n) (n_subs n) = Some s1) by (apply (In_dget _ tag_eqb_eq); assumption).
    split.
    - unfold all_attempts. rewrite !flat_map_map. f_equal. apply (dset_in _ _ _ _ _ tag_eqb_eq) with (v := s1); [assumption|].
      now apply same_attempts.
    - split; intros F; rewrite Forall_forall in *; intros [k s] J.
      + destruct (tag_eqb k (one n)) eqn:Ek.
        * apply tag_eqb_eq in Ek. subst k. assert (s = s1); [|subst s; right; cbn [snd]; eauto].
          rewrite (In_dget _ tag_eqb_eq _ _ _ N J) in D1. congruence.
        * apply F. apply (dget_In _ tag_eqb_eq). rewrite (dset_else _ _ _ tag_eqb_eq).
          -- now apply (In_dget _ tag_eqb_eq).
          -- intros X. rewrite <- X, (proj2 (tag_eqb_eq (one n) (one n)) eq_refl) in Ek. discriminate.
      + apply (In_dset _ _ _ tag_eqb_eq) in J. destruct J as [[-> ->]|J]; [|now apply F]. right. cbn [snd]. rewrite A'. eauto. }
  rewrite bind_iff. split.
  - intros (del & E & H). destruct del; [exfalso; now apply (never_deleted n)|]. rewrite getitem_one in H. fold (one n) in H.
    apply bind_ok in H. destruct H as (s1 & E1 & H). apply bind_ok in H. destruct H as ((i1 & s1') & Ei & H).
    apply bind_ok in H. destruct H as (((ds0 & errs0) & subs0) & F & H). injection H as <- <- <-.
    destruct (dget tag_eqb (one n) (n_subs n)) as [s|] eqn:D1; [|discriminate]. injection E1 as ->.
    apply (dget_In _ tag_eqb_eq) in D1. destruct (Common _ _ _ D1 Ei) as (-> & Cf & Ci).
    apply subentries_iff in F. destruct F as (I & Hm & -> & -> & ->). exists s1, (main_info s1), s1'. rewrite Cf in *.
    split; [assumption|]. split; [assumption|]. split; [assumption|]. split; [now apply Ci|]. auto.
  - intros (s1 & i1 & s1' & E & I & Ei & Fi & Hm & -> & -> & ->). exists false. split; [assumption|].
    destruct (Common _ _ _ I Ei) as (-> & Cf & Ci).
    rewrite getitem_one. fold (one n). rewrite (In_dget _ tag_eqb_eq _ _ _ N I). cbn [of_option bind]. rewrite Ei. cbn [bind].
    rewrite bind_iff. eexists (_, _, _). split; [apply subentries_iff; rewrite Cf; split; [now apply Ci|]; split; [assumption|]; repeat split; reflexivity|].
    reflexivity.
Qed.

Theorem dataSets_values : forall e raw nm n errs ds errs' n', X4Entry e raw = Ok n -> getDataSets nm n errs = Ok (ds, errs', n') ->
  exists s1, In (one n, s1) (n_subs n) /\
  (forall sub s p, In (sub, s) (n_subs n) ->
     dget key_eqb (n_accnum n, sub, p) ds = last_some [ok_of (tried nm n s1 s s1 p); ok_of (tried nm n s1 s s p)] /\
     dget key_eqb (n_accnum n, sub, p) errs' =
       last_some [dget key_eqb (n_accnum n, sub, p) errs; exn_of (tried nm n s1 s s1 p); exn_of (tried nm n s1 s s p)]) /\
  (forall acc sub p, (acc <> n_accnum n \/ ~ In sub (dkeys (n_subs n))) ->
     dget key_eqb (acc, sub, p) ds = None /\ dget key_eqb (acc, sub, p) errs' = dget key_eqb (acc, sub, p) errs).
Proof.
  intros e raw nm n errs ds errs' n' H E. pose proof (entry_good _ _ _ H) as G. apply (getDataSets_iff _ _ _ _ _ _ G) in E.
  destruct E as (s1 & i1 & s1' & _ & I1 & _ & _ & _ & -> & -> & _). destruct G as [N K G]. exists s1. split; [assumption|]. split.
  - intros sub s p I. rewrite dget_oks, dget_exns. unfold all_attempts.
    rewrite !(picks_flat _ _ _ _ _ _ _ _ K N). rewrite (In_dget _ tag_eqb_eq _ _ _ N I).
    pose proof (K _ _ I) as A. subst sub. rewrite !picks_sub by eauto. split.
    + unfold ok_of, via. cbn [last_some dget]. destruct (tried nm n s1 s s p) as [[|]|]; try reflexivity; destruct (tried nm n s1 s s1 p) as [[|]|]; reflexivity.
    + unfold exn_of, via. cbn [last_some]. destruct (tried nm n s1 s s p) as [[|]|]; try reflexivity; destruct (tried nm n s1 s s1 p) as [[|]|]; reflexivity.
  - intros acc sub p Ne. rewrite dget_oks, dget_exns. rewrite !picks_none; [split; reflexivity|..];
      (intros a I; unfold all_attempts in I; apply in_flat_map in I; destruct I as ([k s] & I & J); apply sub_attempts_keys in J;
       destruct J as (q & ->); cbn [snd]; rewrite (K _ _ I); intros X; injection X as <- <- <-; destruct Ne as [Ne|Ne]; [now apply Ne|apply Ne; apply (in_map fst) in I; exact I]).
Qed.

(** Nothing else can go wrong: when getDataSets works. *)
Theorem dataSets_total : forall e raw nm n errs s1, X4Entry e raw = Ok n -> In (one n, s1) (n_subs n) ->
  (forall sub s p x, In (sub, s) (n_subs n) -> (tried nm n s1 s s1 p = Some (Raise x) \/ tried nm n s1 s s p = Some (Raise x)) -> recorded x) ->
  deleted n = Ok false -> (forall sub s, In (sub, s) (n_subs n) -> exists i s', sub_information s (s_accnum s) = Ok (i, s')) ->
  exists ds errs' n', getDataSets nm n errs = Ok (ds, errs', n').
Proof.
  intros e raw nm n errs s1 H I1 T Dl F. pose proof (entry_good _ _ _ H) as G.
  destruct (F _ _ I1) as (i1 & s1' & E1). rewrite (g_keys _ G _ _ I1) in E1.
  do 3 eexists. apply (getDataSets_iff _ _ _ _ _ _ G). exists s1, i1, s1'. destruct G as [N K G].
  split; [assumption|].
  split; [assumption|]. split; [assumption|].
  split; [rewrite Forall_forall; intros [k s] I; right; cbn [snd]; eauto|].
  split; [|repeat split; reflexivity].
  rewrite Forall_forall. intros a I x E. unfold all_attempts in I. apply in_flat_map in I. destruct I as ([k s] & I & J).
  apply (T k s (snd (fst a)) x I). unfold sub_attempts in J. cbn [fst snd] in J. unfold tried.
  destruct (sub_data s "DATA") as [data|]; [|contradiction]. pose proof (K _ _ I) as A. subst k.
  apply in_app_iff in J. destruct J as [J|J]; apply in_map_iff in J; destruct J as ([p r] & <- & J); cbn [fst snd] in *;
    unfold main_info in *; cbn [i_meta i_common i_monitors i_reactions] in *.
  - left. rewrite (In_dget _ Ascii.eqb_eq _ _ _ (G _ _ I1) J). f_equal. exact E.
  - right. rewrite (In_dget _ Ascii.eqb_eq _ _ _ (G _ _ I) J). f_equal. exact E.
Qed.

(** ** getSimplifiedDataSets *)

Lemma caught_iff : forall e, simplify_caught e = true <-> recorded_simplifying e.
Proof.
  intros e. unfold recorded_simplifying. split.
  - destruct e; cbn; intros H; try discriminate; tauto.
  - cbn [In]. intros H. repeat (destruct H as [<-|H]; [reflexivity|]). contradiction.
Qed.

Lemma dkeys_put : forall (V : Type) (l : list (ds_key * option V)) d, NoDup (dkeys d) -> NoDup (dkeys (fold_left put l d)).
Proof.
  intros V. induction l as [|[k [v|]] l IH]; intros d N; cbn [fold_left]; [assumption|apply IH; now apply (NoDup_dset _ key_eqb_eq)|now apply IH].
Qed.

(** What becomes of one data set. *)
Definition simple acos mk (d : dataset) : res dataset := fst (run (getSimplified acos mk false d) store0).
Definition or_same acos mk (d : dataset) : dataset := match simple acos mk d with Ok d' => d' | Raise _ => d end.

Lemma simplify_fold : forall acos mk l ds errs s ds' errs' s',
  fold_res (simplify_step acos mk) l (ds, errs, s) = Ok (ds', errs', s') ->
  Forall (fun kd => forall e, simple acos mk (snd kd) = Raise e -> recorded_simplifying e) l /\
  ds' = fold_left put (map (fun kd => (fst kd, ok_of (Some (simple acos mk (snd kd))))) l) ds /\
  errs' = fold_left put (map (fun kd => (fst kd, exn_of (Some (simple acos mk (snd kd))))) l) errs.
Proof.
  intros acos mk. induction l as [|[k d] l IH]; intros ds errs s ds' errs' s' E.
  - injection E as <- <- <-. auto.
  - cbn [fold_res] in E. apply bind_ok in E. destruct E as (((ds1 & errs1) & s1) & E1 & E). apply IH in E. destruct E as (F & -> & ->).
    unfold simplify_step in E1. destruct (run (getSimplified acos mk false d) s) as [r s2] eqn:R.
    assert (Er : r = simple acos mk d). { unfold simple. rewrite run_getSimplified, <- (run_getSimplified acos mk false d s). now rewrite R. }
    cbn [map fold_left fst snd]. rewrite <- Er. unfold put at 2 4. cbn [fst snd]. destruct r as [d'|x]; cbn [ok_of exn_of].
    + injection E1 as <- <- <-. split; [|auto]. constructor; [|assumption]. cbn [snd]. rewrite <- Er. discriminate.
    + destruct (simplify_caught x) eqn:C; [|discriminate]. injection E1 as <- <- <-. split; [|auto]. constructor; [|assumption].
      cbn [snd]. rewrite <- Er. intros e X. injection X as <-. now apply caught_iff.
Qed.

Lemma pick_one : forall (V : Type) (g : dataset -> option V) k (l : datasets), NoDup (dkeys l) ->
  last_some (map (pick k) (map (fun kd => (fst kd, g (snd kd))) l)) = match dget key_eqb k l with Some d => g d | None => None end.
Proof.
  intros V g k. induction l as [|[k' d] l IH]; intros N; [reflexivity|]. apply NoDup_cons_iff in N. destruct N as [Nk N'].
  cbn [map last_some dget]. rewrite (IH N'). unfold pick. cbn [fst snd]. destruct (key_eqb k k') eqn:E.
  - apply key_eqb_eq in E. rewrite <- E in Nk. destruct (dget key_eqb k l) as [d'|] eqn:D; [|reflexivity].
    exfalso. apply Nk. apply (dget_In _ key_eqb_eq) in D. apply (in_map fst) in D. exact D.
  - destruct (dget key_eqb k l) as [d'|]; [destruct (g d')|]; reflexivity.
Qed.
Lemma dkeys_put_present : forall (V : Type) (l : list (ds_key * option V)) d, (forall a, In a l -> In (fst a) (dkeys d)) ->
  dkeys (fold_left put l d) = dkeys d.
Proof.
  intros V. induction l as [|a l IH]; intros d H; [reflexivity|]. cbn [fold_left].
  assert (E : dkeys (put d a) = dkeys d).
  { unfold put. destruct (snd a) as [v|]; [|reflexivity]. rewrite dkeys_dset.
    now rewrite (proj2 (dhas_keys _ key_eqb_eq (fst a) d) (H a (or_introl eq_refl))). }
  rewrite IH; [exact E|]. intros b I. rewrite E. apply H. now right.
Qed.

Theorem simplifiedDataSets_spec : forall e raw nm acos mk n errs s ds' errs' n' s', X4Entry e raw = Ok n ->
  getSimplifiedDataSets nm acos mk n errs s = Ok (ds', errs', n', s') ->
  exists ds errs0, getDataSets nm n errs = Ok (ds, errs0, n') /\ dkeys ds' = dkeys ds /\
    (forall k d, dget key_eqb k ds = Some d ->
       (exists d', fst (run (getSimplified acos mk false d) store0) = Ok d' /\ dget key_eqb k ds' = Some d' /\
    dget key_eqb k errs' = dget key_eqb k errs0) \/
       (exists x, fst (run (getSimplified acos mk false d) store0) = Raise x /\ recorded_simplifying x /\ dget key_eqb k ds' = Some d /\
    dget key_eqb k errs' = Some x)) /\
    (forall k, ~ In k (dkeys ds) -> dget key_eqb k errs' = dget key_eqb k errs0).
Proof.
  intros e raw nm acos mk n errs s ds' errs' n' s' H E. unfold getSimplifiedDataSets in E.
  apply bind_ok in E. destruct E as (((ds & errs0) & n0) & E0 & E). apply bind_ok in E. destruct E as (((ds1 & errs1) & s1) & E1 & E).
  injection E as <- <- <- <-. exists ds, errs0. split; [assumption|].
  assert (N : NoDup (dkeys ds)).
  { apply (getDataSets_iff _ _ _ _ _ _ (entry_good _ _ _ H)) in E0. destruct E0 as (? & ? & ? & _ & _ & _ & _ & _ & -> & _).
    apply dkeys_put. constructor. }
  apply simplify_fold in E1. destruct E1 as (F & -> & ->). split.
  { apply dkeys_put_present. intros a I. apply in_map_iff in I. destruct I as ([k d] & <- & I). cbn [fst]. apply (in_map fst) in I. exact I. }
  split.
  - intros k d D. rewrite !dget_put.
    rewrite (pick_one _ (fun d => ok_of (Some (simple acos mk d))) k ds N), (pick_one _ (fun d => exn_of (Some (simple acos mk d))) k ds N).
    rewrite D. fold (simple acos mk d). pose proof (dget_In _ key_eqb_eq _ _ _ D) as I. rewrite Forall_forall in F. specialize (F _ I). cbn [snd] in F.
    destruct (simple acos mk d) as [d'|x]; cbn [ok_of exn_of]; [left; eauto|right; eauto 6].
  - intros k Nk. rewrite dget_put, (pick_one _ (fun d => exn_of (Some (simple acos mk d))) k ds N).
    apply (dget_None _ key_eqb_eq) in Nk. now rewrite Nk.
Qed.

(** ** Asking again *)

Lemma info_bib : forall s info s' k f, sub_information s (s_accnum s) = Ok (info, s') ->
  (b <- sub_bib s ;; Ok (bib_field b k)) = Ok f -> k <> "TITLE" -> (b <- sub_bib s' ;; Ok (bib_field b k)) = Ok f.
Proof.
  intros s info s' k f H B N. unfold sub_information in H. apply bind_ok in H. destruct H as ((((m & rs) & ms) & s1) & E & H).
  injection H as <- <-. unfold sub_section in E. unfold sub_bib in *.
  destruct (dget str_eqb (lit "BIB") (s_dict s)) as [[b|d]|] eqn:D; [|discriminate|discriminate]. cbn [bind] in B.
  apply bind_ok in E. destruct E as (a & Ea & E). apply bind_ok in E. destruct E as ((m0 & b') & Em & E).
  apply bind_ok in E. destruct E as (rs0 & _ & E). apply bind_ok in E. destruct E as (ms0 & _ & E). injection E as <- <- <- <-.
  unfold sub_set_bib. cbn [s_dict]. rewrite (dset_again _ _ _ str_eqb_eq). cbn [bind].
  destruct (meta_after _ _ _ _ Em) as [_ O]. now rewrite O.
Qed.

Definition history (s : subentry) : res (option (option field)) := b <- sub_bib s ;; Ok (bib_field b "HISTORY").
Lemma deleted_one : forall n s, dget tag_eqb (one n) (n_subs n) = Some s ->
  deleted n = (f <- history s ;; match f with None => Ok false | Some (Some f) => Ok (field_has_key f (lit "ENTRY DELETED")) | Some None => Raise TypeError end).
Proof.
  intros n s D. unfold deleted, history. rewrite getitem_one. fold (one n). rewrite D. cbn [of_option bind].
  destruct (sub_bib s); reflexivity.
Qed.

(** The same as before, for all that data sets are made of. *)
Record alike (s s' : subentry) : Prop := mkAlike {
  a_acc : s_accnum s' = s_accnum s; a_meta : metadata_of s' = metadata_of s; a_rx : reactions_of s' = reactions_of s;
  a_mon : monitors_of s' = monitors_of s; a_data : forall k, k <> "BIB" -> sub_data s' k = sub_data s k;
  a_hist : forall f, history s = Ok f -> history s' = Ok f }.
Lemma alike_refl : forall s, alike s s.
Proof. intros s. constructor; auto. Qed.
Lemma alike_trans : forall a b c, alike a b -> alike b c -> alike a c.
Proof.
  intros a b c [A1 A2 A3 A4 A5 A6] [B1 B2 B3 B4 B5 B6]. constructor; try congruence; [|auto].
  intros k N. now rewrite (B5 k N), (A5 k N).
Qed.
Lemma alike_info : forall s i s', sub_information s (s_accnum s) = Ok (i, s') -> alike s s'.
Proof.
  intros s i s' E. destruct (info_spec _ _ _ E) as (_ & A & M & R & O & D & _). constructor; auto.
  intros f Hf. exact (info_bib _ _ _ _ _ E Hf ltac:(discriminate)).
Qed.
Lemma alike_after : forall ks, fst (after ks) = fst ks /\ alike (snd ks) (snd (after ks)).
Proof.
  intros [k s]. unfold after. cbn [fst snd]. destruct (sub_data s "DATA"); [|split; [reflexivity|apply alike_refl]].
  destruct (sub_information s (s_accnum s)) as [[i s']|] eqn:E; cbn [fst snd]; split; try reflexivity; [eapply alike_info; eassumption|apply alike_refl].
Qed.
Lemma after_again : forall ks, after (after ks) = after ks.
Proof.
  intros [k s]. unfold after at 2 3. cbn [fst snd]. destruct (sub_data s "DATA") as [d|] eqn:D; [|unfold after; cbn [fst snd]; now rewrite D].
  destruct (sub_information s (s_accnum s)) as [[i s']|] eqn:E; [|unfold after; cbn [fst snd]; now rewrite D, E].
  destruct (info_spec _ _ _ E) as (_ & A & _ & _ & _ & _ & E'). unfold after. cbn [fst snd]. rewrite A, E'. now destruct (sub_data s' "DATA").
Qed.

Lemma map_keys : forall (K V : Type) (eqb : K -> K -> bool) (f : K * V -> K * V), (forall x, fst (f x) = fst x) ->
  forall k d, dget eqb k (map f d) = match dget eqb k d with Some v => Some (snd (f (match find (fun x => eqb k (fst x)) d with Some x => x | None => (k, v) end))) | None => None end.
Proof.
  intros K V eqb f H k. induction d as [|[a v] d IH]; [reflexivity|]. cbn [map dget find fst].
  pose proof (H (a, v)) as Ha. destruct (f (a, v)) as [a' v'] eqn:Ef. cbn [fst] in Ha. subst a'. destruct (eqb k a); [now rewrite Ef|exact IH].
Qed.

Theorem dataSets_again : forall e raw nm n errs ds errs1 n1, X4Entry e raw = Ok n -> getDataSets nm n errs = Ok (ds, errs1, n1) ->
  forall errs2, exists errs3, getDataSets nm n1 errs2 = Ok (ds, errs3, n1) /\
    (errs2 = errs1 -> forall k, dget key_eqb k errs3 = dget key_eqb k errs1).
Proof.
  intros e raw nm n errs ds errs1 n1 H E errs2. pose proof (entry_good _ _ _ H) as Gd. apply (getDataSets_iff _ _ _ _ _ _ Gd) in E.
  destruct E as (s1 & i1 & s1' & Dl & I1 & Ei & Fi & Hm & -> & -> & ->). destruct Gd as [N K G].
  set (subs := map after (dset tag_eqb (one n) s1' (n_subs n))). set (n1 := mkEntry (n_accnum n) subs).
  pose proof (K _ _ I1) as A1. assert (L1 : alike s1 s1'). { rewrite <- A1 in Ei. eapply alike_info; eassumption. }
  (* every subentry is like before *)
  assert (Hkeys : dkeys subs = dkeys (n_subs n)).
  { unfold subs, dkeys. rewrite map_map. rewrite (map_ext _ fst) by (intros x; apply alike_after).
    change (dkeys (dset tag_eqb (one n) s1' (n_subs n)) = dkeys (n_subs n)). rewrite dkeys_dset.
    rewrite (proj2 (dhas_keys _ tag_eqb_eq (one n) (n_subs n))); [reflexivity|]. apply (in_map fst) in I1. exact I1. }
  assert (Hold : forall k s', In (k, s') subs -> exists s, In (k, s) (n_subs n) /\ alike s s' /\ exists s0, after (k, s0) = (k, s')).
  { intros k s' I. unfold subs in I. apply in_map_iff in I. destruct I as ([k0 s0] & Ea & I). destruct (alike_after (k0, s0)) as [Fa La].
    rewrite Ea in Fa, La. cbn [fst snd] in *. subst k0. apply (In_dset _ _ _ tag_eqb_eq) in I. destruct I as [[-> ->]|I].
    - exists s1. split; [assumption|]. split; [eapply alike_trans; eassumption|eauto].
    - exists s0. split; [assumption|]. eauto. }
  assert (G1 : good_entry n1).
  { constructor; unfold n1; cbn [n_subs].
    - rewrite Hkeys. assumption.
    - intros k s' I. destruct (Hold _ _ I) as (s & J & L & _). rewrite (a_acc _ _ L). now apply K.
    - intros k s' I. destruct (Hold _ _ I) as (s & J & L & _). unfold good_sub. rewrite (a_rx _ _ L). now apply (G k). }
  (* subentry 001 *)
  assert (Hone : exists s2, In (one n, s2) subs /\ alike s1 s2 /\ (exists i, sub_information s2 (one n) = Ok (i, s2))).
  { destruct (alike_after (one n, s1')) as [Fa La]. exists (snd (after (one n, s1'))). split; [|split].
    - unfold subs. apply in_map_iff. exists (one n, s1'). split; [destruct (after (one n, s1')); cbn [fst snd] in *; congruence|].
      apply (dget_In _ tag_eqb_eq). apply (dset_again _ _ _ tag_eqb_eq).
    - eapply alike_trans; eassumption.
    - rewrite <- A1 in Ei. destruct (info_spec _ _ _ Ei) as (_ & A' & _ & _ & _ & _ & E'). exists i1.
      unfold after. cbn [fst snd]. rewrite A', E'. destruct (sub_data s1' "DATA"); cbn [snd]; rewrite <- A1; exact E'. }
  destruct Hone as (s2 & I2 & L2 & i2 & Ei2).
  assert (Hatt : all_attempts nm n1 s2 = all_attempts nm n s1).
  { unfold all_attempts, n1. cbn [n_accnum n_subs].
    replace (main_info s2) with (main_info s1).
    2: { unfold main_info. rewrite (a_meta _ _ L2), (a_rx _ _ L2), (a_mon _ _ L2), (a_data _ _ L2) by discriminate. reflexivity. }
    rewrite !flat_map_map. f_equal. unfold subs. rewrite map_map.
    rewrite <- (dset_in _ _ _ _ (sub_attempts nm (n_accnum n) (main_info s1)) tag_eqb_eq (one n) s1 s1' (n_subs n)).
    - apply map_ext. intros [k s]. destruct (alike_after (k, s)) as [Fa La]. destruct (after (k, s)) as [k' s']. cbn [fst snd] in *. subst k'.
      destruct La. apply same_attempts; assumption.
    - now apply (In_dget _ tag_eqb_eq).
    - destruct L1. apply same_attempts; assumption. }
  exists (fold_left put (exns (all_attempts nm n s1)) errs2). split.
  - apply (getDataSets_iff _ _ _ _ _ _ G1). exists s2, i2, s2. split.
    { rewrite (deleted_one n1 s2) by (apply (In_dget _ tag_eqb_eq); [unfold n1; cbn [n_subs]; now rewrite Hkeys|exact I2]).
      rewrite (deleted_one n s1) in Dl by (now apply (In_dget _ tag_eqb_eq)). apply bind_ok in Dl. destruct Dl as (f & Hf & Dl).
      rewrite (a_hist _ _ L2 f Hf). exact Dl. }
    split; [exact I2|]. split; [exact Ei2|]. split.
    { unfold n1. cbn [n_subs]. rewrite Forall_forall in *. intros [k s'] I. destruct (Hold _ _ I) as (s & J & L & _).
      unfold subs in I. apply in_map_iff in I. destruct I as ([k0 s0] & Ea & I).
      assert (Io : info_ok (k0, s0)).
      { apply (In_dset _ _ _ tag_eqb_eq) in I. destruct I as [[-> ->]|I]; [|now apply Fi]. right. cbn [snd].
        rewrite <- A1 in Ei. destruct (info_spec _ _ _ Ei) as (_ & A' & _ & _ & _ & _ & E'). rewrite A'. eauto. }
      unfold info_ok in *. cbn [snd] in *. unfold after in Ea. cbn [fst snd] in Ea. destruct Io as [Io|(i & sx & Io)].
      - rewrite Io in Ea. injection Ea as <- <-. now left.
      - rewrite Io in Ea. destruct (sub_data s0 "DATA") eqn:Sd; injection Ea as <- <-; [|now left].
        right. destruct (info_spec _ _ _ Io) as (_ & A' & _ & _ & _ & _ & E'). rewrite A'. eauto. }
    rewrite Hatt. split; [exact Hm|]. split; [reflexivity|]. split; [reflexivity|].
    unfold n1. cbn [n_accnum n_subs]. f_equal. change (one (mkEntry (n_accnum n) subs)) with (one n).
    rewrite (dset_same _ _ _ tag_eqb_eq) by (apply (In_dget _ tag_eqb_eq); [rewrite Hkeys; assumption|exact I2]).
    unfold subs. rewrite map_map. apply map_ext. intros ks. symmetry. apply after_again.
  - intros -> k. rewrite !dget_exns. now destruct (picks _ _ _).
Qed.

(** One subentry does not depend on the others. *)
Theorem dataSets_independent : forall e raw raw' nm n n' errs errs0 ds errs1 n1 ds' errs1' n1', X4Entry e raw = Ok n -> X4Entry e raw' = Ok n' ->
  getDataSets nm n errs = Ok (ds, errs1, n1) -> getDataSets nm n' errs0 = Ok (ds', errs1', n1') ->
  n_accnum n = n_accnum n' -> dget tag_eqb (one n) (n_subs n) = dget tag_eqb (one n') (n_subs n') ->
  forall sub s p, In (sub, s) (n_subs n) -> In (sub, s) (n_subs n') ->
    dget key_eqb (n_accnum n, sub, p) ds = dget key_eqb (n_accnum n, sub, p) ds'.
Proof.
  intros e raw raw' nm n n' errs errs0 ds errs1 n1 ds' errs1' n1' H H' E E' A O sub s p I I'.
  destruct (dataSets_values _ _ _ _ _ _ _ _ H E) as (s1 & J & V & _). destruct (dataSets_values _ _ _ _ _ _ _ _ H' E') as (s1' & J' & V' & _).
  destruct (entry_good _ _ _ H) as [N _ _]. destruct (entry_good _ _ _ H') as [N' _ _].
  rewrite (In_dget _ tag_eqb_eq _ _ _ N J), (In_dget _ tag_eqb_eq _ _ _ N' J') in O. injection O as <-.
  rewrite (proj1 (V _ _ p I)). rewrite A, (proj1 (V' _ _ p I')).
  assert (T : forall f, tried nm n s1 s f p = tried nm n' s1 s f p). { intros f. unfold tried, common_id. now rewrite A. }
  now rewrite !T.
Qed.

(** Keys. *)
Theorem dataSets_keys : forall e raw nm n errs ds errs' n', X4Entry e raw = Ok n -> getDataSets nm n errs = Ok (ds, errs', n') ->
  exists s1, In (one n, s1) (n_subs n) /\
  (forall acc sub p, In (acc, sub, p) (dkeys ds) -> acc = n_accnum n /\
     exists s, In (sub, s) (n_subs n) /\ sub_data s "DATA" <> None /\ (In p (dkeys (reactions_of s)) \/ In p (dkeys (reactions_of s1)))) /\
  (forall sub s p, In (sub, s) (n_subs n) -> sub_data s "DATA" <> None -> In p (dkeys (reactions_of s)) \/ In p (dkeys (reactions_of s1)) ->
     In (n_accnum n, sub, p) (dkeys ds) \/ In (n_accnum n, sub, p) (dkeys errs')).
Proof.
  intros e raw nm n errs ds errs' n' H E. destruct (dataSets_values _ _ _ _ _ _ _ _ H E) as (s1 & I1 & V & W). exists s1. split; [assumption|].
  destruct (entry_good _ _ _ H) as [N K _].
  assert (T : forall s f p, tried nm n s1 s f p <> None <-> sub_data s "DATA" <> None /\ In p (dkeys (reactions_of f))).
  { intros s f p. unfold tried. destruct (sub_data s "DATA") as [d|]; [|split; [intros X; now destruct X|intros [X _]; now destruct X]].
    rewrite (dget_Some_keys _ Ascii.eqb_eq). destruct (dget Ascii.eqb p (reactions_of f)) as [r|].
    - split; [intros _; split; [discriminate|eauto]|discriminate].
    - split; [intros X; now destruct X|intros (_ & r & X); discriminate]. }
  split.
  - intros acc sub p I. apply (dget_Some_keys _ key_eqb_eq) in I. destruct I as (d & D).
    destruct (list_eq_dec ascii_dec acc (n_accnum n)) as [->|Na].
    2: { rewrite (proj1 (W acc sub p (or_introl Na))) in D. discriminate. }
    split; [reflexivity|]. destruct (dget tag_eqb sub (n_subs n)) as [s|] eqn:Ds.
    2: { apply (dget_None _ tag_eqb_eq) in Ds. rewrite (proj1 (W (n_accnum n) sub p (or_intror Ds))) in D. discriminate. }
    apply (dget_In _ tag_eqb_eq) in Ds. exists s. split; [assumption|]. rewrite (proj1 (V _ _ p Ds)) in D.
    destruct (tried nm n s1 s s p) as [r|] eqn:To.
    { assert (X : tried nm n s1 s s p <> None) by (rewrite To; discriminate). apply T in X. tauto. }
    destruct (tried nm n s1 s s1 p) as [r|] eqn:Tm; [|discriminate].
    assert (X : tried nm n s1 s s1 p <> None) by (rewrite Tm; discriminate). apply T in X. tauto.
  - intros sub s p I Dt P. rewrite !(dget_Some_keys _ key_eqb_eq). destruct (V _ _ p I) as [-> ->].
    assert (X : tried nm n s1 s s p <> None \/ tried nm n s1 s s1 p <> None) by (rewrite !T; tauto).
    destruct (tried nm n s1 s s p) as [[d|x]|]; [left; cbn; eauto|right; cbn; eauto|].
    destruct (tried nm n s1 s s1 p) as [[d|x]|]; [left; cbn; eauto|right; cbn; eauto|]. destruct X as [X|X]; now destruct X.
Qed.
