(** Which exceptions the data sets of an entry that has been read can end with. *)
From Coq Require Import String List Ascii NArith ZArith Bool Arith Lia.
From Verif.Model Require Import Py PyFloat Utilities Dicts Particle Reaction Grammars Field Section Entry Columns Dataset.
From Verif.Spec Require Import GeneralKnown WellWritten Printable Damage.
From Verif.Proofs Require Import StrLemmas BibLemmas EntryLemmas EntryDataLemmas DamageLemmas.
From Verif.Proofs Require PrintableLemmas.
Import ListNotations.
Local Open Scope string_scope.
Local Open Scope list_scope.
Local Open Scope nat_scope.

(** ** Dictionaries *)

Lemma dset_inv : forall K V (eqb : K -> K -> bool) (R : K -> V -> Prop) k v d,
  (forall a b, eqb a b = true -> a = b) -> R k v -> (forall a b, In (a, b) d -> R a b) -> forall a b, In (a, b) (dset eqb k v d) -> R a b.
Proof.
  intros K V eqb R k v d EQ N. induction d as [|[k' v'] d IH]; intros H a b I; cbn [dset] in I.
  - destruct I as [E|[]]. injection E as <- <-. exact N.
  - destruct (eqb k k') eqn:E.
    + destruct I as [J|J]; [|apply H; now right]. injection J as <- <-. apply EQ in E. now subst k'.
    + destruct I as [J|J]; [apply H; now left|]. apply IH; [|exact J]. intros a' b' J'. apply H. now right.
Qed.
Lemma dget_in : forall K V (eqb : K -> K -> bool) k v (d : list (K * V)), (forall a b, eqb a b = true -> a = b) ->
  dget eqb k d = Some v -> In (k, v) d.
Proof.
  intros K V eqb k v d EQ. induction d as [|[k' v'] d IH]; cbn [dget]; [discriminate|]. destruct (eqb k k') eqn:E.
  - intros J. injection J as ->. left. apply EQ in E. now subst k'.
  - intros J. right. now apply IH.
Qed.
Lemma tag_eq : forall a b, tag_eqb a b = true -> a = b.
Proof. intros a b. apply tag_eqb_eq. Qed.
Lemma str_eq : forall a b, str_eqb a b = true -> a = b.
Proof. intros a b. apply str_eqb_eq. Qed.
Lemma key_eq : forall a b, key_eqb a b = true -> a = b.
Proof. intros a b. apply key_eqb_eq. Qed.

(** ** What reading leaves behind *)

Section Right.
(** What is known of every reaction. *)
Variable R : measurement -> Prop.
(** A field under a keyword with a class of its own is of that class. *)
Definition right_class (k : option str) (f : field) : Prop :=
  (k = Some (lit "AUTHOR") -> exists a, f = FAuthor a) /\
  (k = Some (lit "INSTITUTE") -> exists p l, f = FInstitute p l) /\
  (k = Some (lit "TITLE") -> exists p, f = FTitle p) /\
  (k = Some (lit "REFERENCE") -> exists p r, f = FReference p r) /\
  (k = Some (lit "REACTION") -> exists p r, f = FReaction p r /\ forall pr, In pr r -> R (fst (snd pr))) /\
  (k = Some (lit "MONITOR") -> exists p m, f = FMonitor p m).
(** None can only stand under TITLE. *)
Definition right_value (k : option str) (v : option field) : Prop :=
  match v with None => k = Some (lit "TITLE") | Some f => right_class k f end.
Definition right_bib (b : bib) : Prop := forall k v, In (k, v) (b_dict b) -> right_value k v.
Definition right_sub (s : subentry) : Prop :=
  forall k x, In (k, x) (s_dict s) -> k = lit "BIB" -> exists b, x = SBib b /\ right_bib b.
Definition right_entry (n : entry) : Prop := forall k s, In (k, s) (n_subs n) -> s_accnum s = k /\ right_sub s.
End Right.

Lemma make_field_class : forall e k lines f, make_field e k lines = Ok f -> right_class yes k f.
Proof.
  intros e k lines f. unfold make_field. cbv zeta.
  assert (T : forall s, tag_eqb k (Some (lit s)) = true -> k = Some (lit s)) by (intros s; apply tag_eq).
  assert (F : forall s, tag_eqb k (Some (lit s)) = false -> k <> Some (lit s)).
  { intros s E ->. rewrite (proj2 (tag_eqb_eq _ _) eq_refl) in E. discriminate. }
  destruct (tag_eqb k (Some (lit "REACTION"))) eqn:E1; [apply T in E1; destruct (X4ReactionField e lines) as [r|x]; cbn [bind]; [|discriminate]; intros J; injection J as <-; subst k; repeat split; intros Z; first [discriminate Z|solve [eauto]|do 2 eexists; split; [reflexivity|intros; exact I]]|apply F in E1].
  destruct (tag_eqb k (Some (lit "MONITOR"))) eqn:E2; [apply T in E2; destruct (X4MonitorField e lines) as [r|x]; cbn [bind]; [|discriminate]; intros J; injection J as <-; subst k; repeat split; intros Z; first [discriminate Z|solve [eauto]|do 2 eexists; split; [reflexivity|intros; exact I]]|apply F in E2].
  destruct (tag_eqb k (Some (lit "REFERENCE"))) eqn:E3; [apply T in E3; destruct (X4ReferenceField e lines) as [r|x]; cbn [bind]; [|discriminate]; intros J; injection J as <-; subst k; repeat split; intros Z; first [discriminate Z|solve [eauto]|do 2 eexists; split; [reflexivity|intros; exact I]]|apply F in E3].
  destruct (tag_eqb k (Some (lit "AUTHOR"))) eqn:E4; [apply T in E4; destruct (X4AuthorField e lines) as [r|x]; cbn [bind]; [|discriminate]; intros J; injection J as <-; subst k; repeat split; intros Z; first [discriminate Z|solve [eauto]|do 2 eexists; split; [reflexivity|intros; exact I]]|apply F in E4].
  destruct (tag_eqb k (Some (lit "TITLE"))) eqn:E5; [apply T in E5; destruct (X4PlainField lines) as [r|x]; cbn [bind]; [|discriminate]; intros J; injection J as <-; subst k; repeat split; intros Z; first [discriminate Z|solve [eauto]|do 2 eexists; split; [reflexivity|intros; exact I]]|apply F in E5].
  destruct (tag_eqb k (Some (lit "INSTITUTE"))) eqn:E6; [apply T in E6; destruct (X4InstituteField e lines) as [r|x]; cbn [bind]; [|discriminate]; intros J; injection J as <-; subst k; repeat split; intros Z; first [discriminate Z|solve [eauto]|do 2 eexists; split; [reflexivity|intros; exact I]]|apply F in E6].
  intros _. repeat split; intros Z; contradiction.
Qed.

(** [okp] with a list of exceptions that holds them all says only what a value is. *)
Definition okv {A} (P : A -> Prop) (r : res A) : Prop := match r with Ok a => P a | Raise _ => True end.
Lemma okv_bind : forall A B (P : A -> Prop) (Q : B -> Prop) m k, okv P m -> (forall a, P a -> okv Q (k a)) -> okv Q (bind m k).
Proof. intros A B P Q [a|x] k H K; cbn in *; auto. Qed.
Lemma okv_any : forall A (r : res A), okv yes r.
Proof. intros A [a|x]; exact I. Qed.
Lemma okv_self : forall A (r : res A), okv (fun a => r = Ok a) r.
Proof. intros A [a|x]; [reflexivity|exact I]. Qed.
Lemma okv_fold : forall A S (P : S -> Prop) f (s : list A) st, P st -> (forall st a, P st -> okv P (f st a)) -> okv P (fold_res f s st).
Proof.
  intros A S P f s. induction s as [|a s IH]; intros st H F; cbn [fold_res]; [exact H|].
  apply okv_bind with (P := P); [now apply F|]. intros st' H'. now apply IH.
Qed.

Lemma bib_right : forall e lines, okv (right_bib yes) (X4BibSection e lines).
Proof.
  intros e lines. unfold X4BibSection. apply okv_fold; [intros k v []|]. intros b field RB.
  apply okv_bind with (P := yes); [apply okv_any|]. intros ftag _.
  eapply okv_bind; [apply okv_self|]. intros f F. cbn [okv]. intros k v I. cbn [b_dict] in I. revert k v I.
  apply dset_inv; [exact tag_eq| |exact RB]. exact (make_field_class _ _ _ _ F).
Qed.
Lemma sub_right : forall e text, okv (right_sub yes) (X4SubEntry e text).
Proof.
  intros e text. unfold X4SubEntry, X4SubEntry_lines.
  apply okv_bind with (P := fun d => forall k x, In (k, x) d -> k = lit "BIB" -> exists b, x = SBib b /\ right_bib yes b); [|intros d D; exact D].
  apply okv_fold; [intros k x []|]. intros d lines D.
  apply okv_bind with (P := fun s => fst s = lit "BIB" -> exists b, snd s = SBib b /\ right_bib yes b).
  - unfold make_section. destruct (extractX4SectionType lines) as [tag|]; [|exact I]. destruct (str_eqb tag (lit "BIB")) eqn:E.
    + apply okv_bind with (P := right_bib yes); [apply bib_right|]. intros b B _. exists b. split; [reflexivity|exact B].
    + apply okv_bind with (P := yes); [apply okv_any|]. intros d' _ Z. cbn [fst] in Z. subst tag. vm_compute in E. discriminate E.
  - intros s S. cbn [okv]. apply (dset_inv _ _ str_eqb (fun k x => k = lit "BIB" -> exists b, x = SBib b /\ right_bib yes b)); [exact str_eq|exact S|exact D].
Qed.
Lemma entry_right : forall e raw n, X4Entry e raw = Ok n -> right_entry yes n.
Proof.
  intros e raw n E. assert (H : okv (right_entry yes) (X4Entry e raw)); [|rewrite E in H; exact H]. clear.
  unfold X4Entry. destruct (extractX4EntryIndex raw) as [a|]; [|exact I]. destruct (negb _); [exact I|].
  apply okv_bind with (P := fun d => forall k s, In (k, s) d -> s_accnum s = k /\ right_sub yes s); [|intros d D; exact D].
  apply okv_fold; [intros k s []|]. intros d x D. apply okv_bind with (P := right_sub yes); [apply sub_right|]. intros s S. cbn [okv].
  apply (dset_inv _ _ tag_eqb (fun k s => s_accnum s = k /\ right_sub yes s)); [exact tag_eq|split; [reflexivity|exact S]|exact D].
Qed.

(** ** Metadata *)
Section Metadata.
Variable Q : measurement -> Prop.


Lemma field_of : forall b k v, right_bib Q b -> bib_field b k = Some v -> right_value Q (Some (lit k)) v.
Proof. intros b k v R G. apply R. exact (dget_in _ _ _ _ _ _ tag_eq G). Qed.
Lemma metadata_okp : forall b a L, right_bib Q b -> okp L (fun r => right_bib Q (snd r)) (X4BibMetaData b a).
Proof.
  intros b a L R. unfold X4BibMetaData. step.
  { destruct (bib_field b "AUTHOR") as [v|] eqn:G; [|exact I]. apply (field_of _ _ _ R) in G. destruct v as [f|]; [|discriminate G].
    destruct (proj1 G eq_refl) as (x & ->). exact I. }
  intros author _. step.
  { destruct (bib_field b "INSTITUTE") as [v|] eqn:G; [|exact I]. apply (field_of _ _ _ R) in G. destruct v as [f|]; [|discriminate G].
    destruct (proj1 (proj2 G) eq_refl) as (x & y & ->). exact I. }
  intros inst _. apply okp_bind with (P := fun r => right_bib Q (snd r)).
  { destruct (bib_field b "TITLE") as [v|] eqn:G.
    - apply (field_of _ _ _ R) in G. destruct v as [f|]; [|exact R]. destruct (proj1 (proj2 (proj2 G)) eq_refl) as (x & ->). exact R.
    - cbn [okp snd]. unfold right_bib. cbn [b_dict]. apply dset_inv; [exact tag_eq|reflexivity|exact R]. }
  intros [title b'] RB. cbn [snd] in RB. step.
  { destruct (bib_field b "REFERENCE") as [v|] eqn:G; [|exact I]. apply (field_of _ _ _ R) in G. destruct v as [f|]; [|discriminate G].
    destruct (proj1 (proj2 (proj2 (proj2 G))) eq_refl) as (x & y & ->). exact I. }
  intros [[rf pt] yr] _. exact RB.
Qed.
Lemma section_of : forall s x, right_sub Q s -> sub_section s "BIB" = Some x -> exists b, x = SBib b /\ right_bib Q b.
Proof. intros s x R G. exact (R _ _ (dget_in _ _ _ _ _ _ str_eq G) eq_refl). Qed.
Lemma information_okp : forall s a L, right_sub Q s ->
  okp L (fun r => right_sub Q (snd r) /\ s_accnum (snd r) = s_accnum s /\ forall pr, In pr (i_reactions (fst r)) -> Q (fst (snd pr))) (sub_information s (Some a)).
Proof.
  intros s a L R. unfold sub_information. apply okp_bind with (P := fun r => right_sub Q (snd r) /\ s_accnum (snd r) = s_accnum s /\ forall pr, In pr (snd (fst (fst r))) -> Q (fst (snd pr))).
  2:{ intros [[[m rs] ms] s'] H. exact H. }
  destruct (sub_section s "BIB") as [x|] eqn:G; [|split; [exact R|split; [reflexivity|intros pr []]]]. destruct (section_of _ _ R G) as (b & -> & RB).
  cbn [of_option bind]. eapply okp_bind; [apply (metadata_okp b a L RB)|]. intros [m b'] RB'. cbn [snd] in RB'.
  apply okp_bind with (P := fun rs : reactions_dict => forall pr, In pr rs -> Q (fst (snd pr))).
  { destruct (bib_field b "REACTION") as [v|] eqn:F; [|intros pr []]. apply (field_of _ _ _ RB) in F. destruct v as [f|]; [|discriminate F].
    destruct (proj1 (proj2 (proj2 (proj2 (proj2 F)))) eq_refl) as (x & y & -> & QY). exact QY. }
  intros rs QR. step.
  { destruct (bib_field b "MONITOR") as [v|] eqn:F; [|exact I]. apply (field_of _ _ _ RB) in F. destruct v as [f|]; [|discriminate F].
    destruct (proj2 (proj2 (proj2 (proj2 (proj2 F)))) eq_refl) as (x & y & ->). exact I. }
  intros ms _. cbn [okp snd]. split; [|split; [reflexivity|exact QR]]. unfold right_sub, sub_set_bib. cbn [s_dict].
  apply (dset_inv _ _ str_eqb (fun k x => k = lit "BIB" -> exists b, x = SBib b /\ right_bib Q b)); [exact str_eq|intros _; eauto|exact R].
Qed.

End Metadata.

(** ** One data set *)

Lemma set_data_okp : forall L data common p, In IndexError L -> okp L yes (setData data common p).
Proof.
  intros L data common p X. unfold setData. step.
  { apply okp_fold; [exact I|]. intros [[[ls us] os] fs] [d|] _; [|exact I]. unfold heading_step. apply okp_fold; [exact I|].
    intros [[[ls' us'] os'] fs'] i _. destruct (keep_column d p i); [|exact I].
    step; [now apply okp_index|]. intros l _. step; [now apply okp_index|]. intros u _. exact I. }
  intros [[[ls us] os] fs] _. step; [destruct (_ <? _)%Z; [now apply okp_index|exact I]|]. intros off _.
  step.
  { apply okp_map_all. intros i. step; [now apply okp_index|]. intros cells _. unfold data_row. step; [|intros own _; exact I].
    apply okp_map_all. intros ix. step; [now apply okp_index|]. intros k _. exact I. }
  intros rows _. step; [|intros r _; exact I]. apply okp_fold; [exact I|]. intros rs [[id c]|] _; [|exact I]. unfold add_common. cbv zeta.
  apply okp_map_all. intros [i row]. destruct (i <? _); [|exact I]. step; [now apply okp_index|]. intros o _.
  unfold write_common. apply okp_fold; [exact I|]. intros r j _. step; [now apply okp_index|]. intros cs _. step; [now apply okp_index|].
  intros v _. unfold set_nth. destruct (_ <? _); [exact I|exact X].
Qed.
Lemma make_okp : forall L cls meta common r mon data p, In IndexError L -> okp L yes (make_dataset cls meta common r mon data p).
Proof. intros. unfold make_dataset. step; [now apply set_data_okp|]. intros t _. exact I. Qed.

(** str() of a measurement *)
Definition text_errors : list exn := [KeyError; TypeError; IndexError].
Ltac tmem := cbn [text_errors okp bind of_option In]; tauto.
Ltac tmember := first [apply okp_index; tmem | apply okp_option; tmem | tmem].
Lemma pretty_okp : forall d p, okp text_errors yes (pretty d p).
Proof.
  intros d p. assert (S : forall n s, okp text_errors yes (particle_pretty n s)).
  { intros n s. unfold particle_pretty. step; [|intros m _; exact I]. unfold several. destruct n; [exact I|tmember]. }
  destruct p as [n s z a|s|z s a|z s a|z s a i|k s z]; cbn [pretty]; try exact I; try apply S.
  step; [tmember|]. intros l _. tmember.
Qed.
Lemma part_okp : forall d p, okp text_errors yes (part_str d p).
Proof. intros d [s|q|]; cbn [part_str]; [exact I|apply pretty_okp|exact I]. Qed.
Lemma reaction_okp : forall d q m r, okp text_errors yes (reaction_str d q m r).
Proof.
  intros d q m r. unfold reaction_str. step.
  - unfold getReactionType. step; [apply join_toks_raises; tmem|]. intros qt _. destruct (dget str_eqb qt q); [tmember|]. cbv zeta. step.
    + destruct (find _ _); [|exact I]. step; [tmember|]. intros lb _. step; [tmember|]. intros tt _. exact I.
    + intros pre _. destruct (find _ _); [|exact I]. step; [tmember|]. intros lb _. step; [tmember|]. intros tt _. exact I.
  - intros t _. step; [|intros p _; exact I]. unfold process_str. step; [apply part_okp|]. intros a _. step; [apply part_okp|]. intros b _.
    step; [destruct (truthy _); [apply part_okp|exact I]|]. intros c _. exact I.
Qed.
Fixpoint element_okp (d q m : x4dict) (x : element) {struct x} : okp text_errors yes (element_str d q m x).
Proof.
  destruct x as [s|r|data].
  - exact I.
  - apply reaction_okp.
  - cbn [element_str]. induction data as [|j l IH]; [exact I|]. step; [apply element_okp|]. intros s _. step; [exact IH|]. intros rest _. exact I.
Qed.
Lemma m_str_okp : forall nm m, okp text_errors yes (m_str nm m).
Proof. intros nm [r|data|data]; unfold m_str, measurement_str; [apply reaction_okp|apply element_okp|apply element_okp]. Qed.

(** What is recorded *)
Definition recorded (old : errors) (k : ds_key) (x : exn) : Prop := In (k, x) old \/ x = IndexError \/ x = NotImplementedError.
Definition records (old new : errors) : Prop := forall k x, In (k, x) new -> recorded old k x.

(** [says r]: str() of the measurement does not raise. *)
Definition says (nm : names) (m : measurement) : Prop := exists t, m_str nm m = Ok t.
Lemma factory_okp : forall nm r meta common mon data p L, In IndexError L -> In NotImplementedError L ->
  okp L yes (m_str nm (fst r)) ->
  okp L yes (X4DataSetFactory nm (m_quantity (fst r)) meta common (Some r) mon data p).
Proof.
  intros nm [m t] meta common mon data p L X N T. unfold X4DataSetFactory. step; [|intros q _; now apply make_okp].
  cbn [fst] in *. unfold settle_quantity. destruct m as [r|d|d]; cbn [m_quantity]; [exact I| |].
  all: change (str_eqb (lit "Coupled") (lit "Coupled")) with true; cbv iota.
  all: destruct (unique _ _) as [|l [|l' ls]]; [|exact I|].
  all: apply okp_bind with (P := yes); [|intros s _; exact N].
  all: exact T.
Qed.
Lemma build_okp : forall nm acc sub meta common data mons old L st pr,
  okp (IndexError :: L) yes (m_str nm (fst (snd pr))) -> records old (snd st) ->
  okp L (fun st' => records old (snd st')) (build_step nm acc sub meta common data mons st pr).
Proof.
  intros nm acc sub meta common data mons old L [ds errs] [p r] T R. cbn [snd fst] in *. unfold build_step.
  assert (F := factory_okp nm r meta common (dget Ascii.eqb p mons) data (Some p) (IndexError :: NotImplementedError :: L)).
  match goal with |- context [X4DataSetFactory ?a ?b ?c ?d ?e ?f ?g ?h] => set (w := X4DataSetFactory a b c d e f g h) in * end.
  assert (G : okp (IndexError :: NotImplementedError :: L) yes w).
  { apply F; [now left|right; now left|]. apply (okp_incl _ _ _ _ _ T). intros x [<-|X]; [now left|right; now right]. }
  clearbody w. destruct w as [d|x]; cbn [okp] in G; [exact R|].
  destruct G as [<-|[<-|G]].
  - cbn [okp snd]. unfold records. apply dset_inv; [exact key_eq|right; now left|exact R].
  - cbn [okp snd]. unfold records. apply dset_inv; [exact key_eq|right; now right|exact R].
  - destruct x; try exact G; cbn [okp snd]; unfold records; (apply dset_inv; [exact key_eq|unfold recorded; tauto|exact R]).
Qed.

(** ** The data sets of an entry *)

Lemma okp_fold_in : forall A S l (P : S -> Prop) f (s : list A) st, P st -> (forall st a, In a s -> P st -> okp l P (f st a)) -> okp l P (fold_res f s st).
Proof.
  intros A S l P f s. induction s as [|a s IH]; intros st H F; cbn [fold_res]; [exact H|].
  apply okp_bind with (P := P); [apply F; [now left|exact H]|]. intros st' H'. apply IH; [exact H'|]. intros st2 a2 J. apply F. now right.
Qed.

Section Sets.
Variable nm : names.
Variable Q : measurement -> Prop.
Variable L : list exn.
Hypothesis QL : forall m, Q m -> okp (IndexError :: L) yes (m_str nm m).

Lemma subentry_okp : forall acc main old st ks, (forall pr, In pr (i_reactions main) -> Q (fst (snd pr))) ->
  s_accnum (snd ks) = fst ks -> fst ks <> None -> right_sub Q (snd ks) -> records old (snd (fst st)) ->
  okp L (fun st' => records old (snd (fst st'))) (subentry_step nm acc main st ks).
Proof.
  intros acc main old [[ds errs] subs] [k s] M A N R O. cbn [fst snd] in *. unfold subentry_step. destruct (sub_data s "DATA") as [data|]; [|exact O].
  destruct (s_accnum s) as [a|] eqn:SA; [|congruence]. eapply okp_bind; [apply (information_okp Q s a L R)|]. intros [info s'] (_ & _ & QI). cbn [fst] in QI. cbv zeta.
  apply okp_bind with (P := fun st' => records old (snd st')).
  { apply okp_fold_in; [exact O|]. intros st' pr J O'. apply build_okp; [|exact O']. exact (QL _ (M _ J)). }
  intros st' O'. apply okp_bind with (P := fun st' => records old (snd st')).
  { apply okp_fold_in; [exact O'|]. intros st2 pr J O2. apply build_okp; [|exact O2]. exact (QL _ (QI _ J)). }
  intros [ds' errs'] O2. exact O2.
Qed.
Lemma sets_okp : forall n errs, right_entry Q n -> numbered n -> has_heading n \/ In KeyError L ->
  okp L (fun r => records errs (snd (fst r))) (getDataSets nm n errs).
Proof.
  intros n errs R N H. unfold getDataSets.
  assert (T : okp L (fun s => In (Some (n_accnum n ++ lit "001"), s) (n_subs n)) (entry_getitem n (EInt 1))).
  { rewrite getitem_one. destruct (dget tag_eqb _ _) as [s|] eqn:G; cbn [of_option okp]; [exact (dget_in _ _ _ _ _ _ tag_eq G)|].
    destruct H as [(s & b & I & _)|H]; [|exact H]. rewrite getitem_one, G in I. discriminate I. }
  apply okp_bind with (P := yes).
  { unfold deleted. rewrite getitem_one in *. destruct (dget tag_eqb _ _) as [s|] eqn:G; cbn [of_option bind okp] in *; [|exact T].
    destruct (R _ _ T) as (_ & RS). unfold sub_bib.
    destruct (dget str_eqb (lit "BIB") (s_dict s)) as [x|] eqn:B.
    - destruct (section_of Q _ _ RS B) as (b & -> & RB). cbn [bind]. destruct (bib_field b "HISTORY") as [v|] eqn:F; [|exact I].
      apply (field_of Q _ _ _ RB) in F. destruct v as [f|]; [exact I|discriminate F].
    - cbn [bind okp]. destruct H as [(s' & b & J & K)|H]; [|exact H]. rewrite getitem_one, G in J. injection J as <-. unfold sub_bib in K. rewrite B in K. discriminate K. }
  intros del _. destruct del; [intros k x J; now left|].
  eapply okp_bind; [exact T|]. intros s1 I1. destruct (R _ _ I1) as (A1 & R1).
  eapply okp_bind; [apply (information_okp Q s1 (n_accnum n ++ lit "001") L R1)|]. intros [main s1'] (R1' & A1' & QM). cbn [fst snd] in R1', A1', QM. cbv zeta.
  apply okp_bind with (P := fun st' => records errs (snd (fst st'))); [|intros [[ds errs'] subs] O; exact O].
  apply okp_fold_in; [intros k x J; now left|]. intros st [k s] J O.
  assert (RS : s_accnum s = k /\ right_sub Q s /\ k <> None).
  { revert J. apply (dset_inv _ _ tag_eqb (fun k s => s_accnum s = k /\ right_sub Q s /\ k <> None)); [exact tag_eq| |].
    - split; [congruence|]. split; [exact R1'|discriminate].
    - intros k' s' J. destruct (R _ _ J) as (A & B). split; [exact A|]. split; [exact B|]. intros ->. exact (N _ J). }
  destruct RS as (A & B & C). apply subentry_okp; assumption.
Qed.
End Sets.

(** ** Simplification *)

Fixpoint pokp {A} (l : list exn) (P : A -> Prop) (m : prog A) : Prop :=
  match m with
  | Ret r => okp l P r
  | Put _ _ _ k => pokp l P k
  | Get _ _ k => forall v, pokp l P (k v)
  end.
Lemma pokp_bind : forall A B l (P : A -> Prop) (R : B -> Prop) m k, pokp l P m -> (forall a, P a -> pokp l R (k a)) -> pokp l R (pbind m k).
Proof.
  intros A B l P R m k. induction m as [[a|x]|id slot v m IH|id slot f IH]; intros H K; cbn [pbind pokp okp] in *; auto.
Qed.
Lemma pokp_run : forall A l (P : A -> Prop) m s, pokp l P m -> okp l P (fst (run m s)).
Proof. intros A l P m. induction m as [r|id slot v m IH|id slot f IH]; intros s H; cbn [pokp run fst] in *; auto. Qed.
Ltac pstep := apply pokp_bind with (P := yes).

Definition simplify_errors : list exn := [TypeError; IndexError; NoValuesGivenError; NotImplementedError; ValueError].
Ltac smem := cbn [simplify_errors okp pokp pbind bind of_option In]; tauto.
Ltac smember := first [apply okp_index; smem | apply okp_zidx; smem | apply okp_option; smem | smem].
Lemma match_okp : forall p i d, okp simplify_errors yes (cp_isMatch p i d).
Proof.
  intros p i d. unfold cp_isMatch. destruct (_ || _)%bool; [exact I|]. step.
  - destruct (cp_labels p); [|exact I]. step; [smember|]. intros x _. exact I.
  - intros r _. destruct (cp_units p); [|exact I]. destruct r; [|exact I]. step; [smember|]. intros x _. exact I.
Qed.
Lemma first_okp : forall p d, okp simplify_errors yes (firstMatch p d).
Proof.
  intros p d. unfold firstMatch. induction (seq 0 (numcols d)) as [|i is IH]; cbn [first_match_in]; [exact I|].
  step; [apply match_okp|]. intros m _. destruct m; [exact I|exact IH].
Qed.
Lemma base_okp : forall p i d, okp simplify_errors yes (base_getColumn p i d).
Proof.
  intros p i d. unfold base_getColumn. step; [apply match_okp|]. intros m _. destruct (negb m); [exact I|]. step; [smember|]. intros u _.
  step; [destruct u; cbn [getConversion]; [exact I|smember]|]. intros [f cn] _. step; [smember|]. intros l _. step; [|intros cs _; exact I].
  apply okp_map_all. intros row. step; [smember|]. intros x _. exact I.
Qed.
Lemma column_okp : forall acos p i d, okp simplify_errors yes (getColumn acos p i d).
Proof.
  intros acos p i d. unfold getColumn. destruct (negb _); [apply base_okp|]. step; [smember|]. intros l _. destruct (negb _); [apply base_okp|].
  step; [apply match_okp|]. intros m _. destruct (negb m); [exact I|]. step; [exact I|]. intros [f cn] _. step; [|intros cs _; exact I].
  apply okp_map_all. intros row. step; [smember|]. intros x _. destruct (cell_num x); [|exact I]. step; [smember|]. intros a _. exact I.
Qed.
Lemma set_icol_okp : forall id slot c d, pokp simplify_errors yes (set_icol id slot c d).
Proof. intros. unfold set_icol. pstep; [apply first_okp|]. intros z _. exact I. Qed.
Lemma set_icols_okp : forall p d, pokp simplify_errors yes (set_icols p d).
Proof.
  intros [id p] d. unfold set_icols. cbv zeta. cbn [fst snd].
  destruct p; repeat (first [apply set_icol_okp | pstep; [apply set_icol_okp|intros ? _]]).
Qed.
Lemma found_okp : forall id slot, pokp simplify_errors yes (icol_found id slot).
Proof. intros id slot v. exact I. Qed.
Lemma and_okp : forall a b, pokp simplify_errors yes a -> pokp simplify_errors yes b -> pokp simplify_errors yes (p_and a b).
Proof. intros a b A B. unfold p_and. pstep; [exact A|]. intros [|] _; [exact B|exact I]. Qed.
Lemma or_okp : forall a b, pokp simplify_errors yes a -> pokp simplify_errors yes b -> pokp simplify_errors yes (p_or a b).
Proof. intros a b A B. unfold p_or. pstep; [exact A|]. intros [|] _; [exact I|exact B]. Qed.
Lemma is_match_okp : forall p d, pokp simplify_errors yes (isMatch p d).
Proof.
  intros [id p] d. unfold isMatch. cbv zeta. pstep; [apply set_icols_okp|]. intros u _. cbn [fst snd].
  destruct p; repeat first [apply found_okp | apply and_okp | apply or_okp].
Qed.
Lemma located_okp : forall acos id slot c d, pokp simplify_errors yes (located acos id slot c d).
Proof. intros. unfold located. pstep; [intros v; exact I|]. intros i _. apply column_okp. Qed.
Lemma energy_raises : forall acos d, energyColumn acos d = Ret (Raise TypeError).
Proof. reflexivity. Qed.
Lemma value_okp : forall acos p d, pokp simplify_errors yes (getValue acos p d).
Proof.
  intros acos [id p] d. unfold getValue, getValue0. cbv zeta. pstep; [apply is_match_okp|]. intros m _. destruct (negb m); [exact I|].
  pstep; [apply set_icols_okp|]. intros u _. cbn [fst snd].
  destruct p; try rewrite energy_raises; repeat (first [apply located_okp | pstep; [apply located_okp|intros ? _] | smem | exact I]).
Qed.
Lemma sqrt_okp : forall x, okp simplify_errors yes (pysqrt x).
Proof. intros [s|[|]| |[|] m e]; cbn [pysqrt]; first [exact I|smem]. Qed.
Lemma bars_okp : forall d u a b, okp simplify_errors yes (add_bars d u a b).
Proof.
  intros d u a b. unfold add_bars. step; [|intros cs _; exact I]. apply okp_map_all. intros i. step; [smember|]. intros x _. step; [smember|]. intros y _.
  destruct x, y; try exact I; cbv zeta; (step; [apply sqrt_okp|]; intros r _; exact I).
Qed.
Lemma percent_okp : forall a b, okp simplify_errors yes (percent_error a b).
Proof.
  intros a b. unfold percent_error. cbv zeta. step; [|intros cs _; exact I]. apply okp_map_all. intros i. step; [smember|]. intros x _.
  destruct x; (step; [smember|]; intros y _; exact I).
Qed.
Lemma error_okp : forall acos p d, pokp simplify_errors yes (getError acos p d).
Proof.
  intros acos [id p] d. unfold getError, getError0. cbv zeta. cbn [fst snd].
  assert (V : pokp simplify_errors yes (getValue0 (energyColumn acos) acos (id, p) d)) by apply value_okp.
  destruct p; [exact I|..]; (pstep; [apply is_match_okp|]; intros m _; destruct (negb m); [exact I|]; pstep; [apply set_icols_okp|]; intros u _; pstep; [|intros col _; exact I]).
  - pstep; [apply located_okp|]. intros err _. destruct (is_percent _); [|exact I]. pstep; [exact V|]. intros col _. apply percent_okp.
  - pstep; [exact V|]. intros col _. exact I.
  - pstep; [apply located_okp|]. intros x _. pstep; [apply located_okp|]. intros y _. exact I.
  - pstep; [apply located_okp|]. intros x _. pstep; [apply located_okp|]. intros y _. pstep; [apply located_okp|]. intros z _. exact I.
  - pstep; [apply located_okp|]. intros x _. pstep; [apply located_okp|]. intros y _. destruct (_ || _)%bool; [|apply bars_okp].
    pstep; [exact V|]. intros col _. apply bars_okp.
  - rewrite energy_raises. smem.
Qed.
Lemma condense_okp : forall a b, okp simplify_errors yes (condenseColumn a b).
Proof.
  intros a b. unfold condenseColumn. step; [|intros cs _; exact I]. apply okp_map_all. intros i. step; [smember|]. intros [x|] _; [exact I|smember].
Qed.
Lemma reduce_okp : forall l, okp simplify_errors yes (reduce_res condenseColumn l).
Proof. intros [|x l]; cbn [reduce_res]; [smem|]. apply okp_fold; [exact I|]. intros a b _. apply condense_okp. Qed.
Lemma pmap_okp : forall A B (f : A -> prog B) l, (forall x, pokp simplify_errors yes (f x)) -> pokp simplify_errors yes (pmap f l).
Proof. intros A B f l F. induction l as [|x l IH]; cbn [pmap]; [exact I|]. pstep; [apply F|]. intros y _. pstep; [exact IH|]. intros ys _. exact I. Qed.
Lemma columns_okp : forall acos t ps, pokp simplify_errors yes (read_columns acos t ps).
Proof.
  intros acos t ps. unfold read_columns. pstep; [apply pmap_okp; intros p; apply value_okp|]. intros vs _. pstep; [apply reduce_okp|]. intros v _.
  pstep; [apply pmap_okp; intros p; apply error_okp|]. intros es _. pstep; [apply reduce_okp|]. intros e _. destruct (all_none _); [smem|exact I].
Qed.
Lemma keyed_okp : forall acos t (pm : list (str * list parser)),
  pokp simplify_errors (fun cols => dkeys cols = dkeys pm) (pmap (fun e => c <~ read_columns acos t (snd e) ;; Ret (Ok (fst e, c))) pm).
Proof.
  intros acos t pm. induction pm as [|[k ps] pm IH]; cbn [pmap]; [reflexivity|].
  apply pokp_bind with (P := fun y => fst y = k).
  { pstep; [apply columns_okp|]. intros c _. reflexivity. }
  intros [k' c] K. cbn [fst] in K. subst k'. eapply pokp_bind; [exact IH|]. intros cols E. cbn [pokp okp]. unfold dkeys in *. cbn [map fst]. now f_equal.
Qed.
Lemma present : forall V (d : list (str * V)) k, In k (dkeys d) -> exists v, dget str_eqb k d = Some v.
Proof.
  intros V d k. unfold dkeys. induction d as [|[k' v] d IH]; intros [J|J] || intros []; cbn [dget].
  - cbn [fst] in J. subst k'. rewrite str_eqb_refl. eauto.
  - destruct (str_eqb k k'); [eauto|auto].
Qed.
Lemma assemble_okp : forall makeAll n cols names, incl names (dkeys cols) -> okp simplify_errors yes (assemble makeAll false n cols names).
Proof.
  intros makeAll n cols names N. unfold assemble. cbv zeta.
  assert (F : Forall (fun k => In k (dkeys cols)) names) by (apply Forall_forall; exact N). clear N.
  assert (M : forall B (h : str -> res B), (forall k v e none, dget str_eqb k cols = Some (v, e, none) -> okp simplify_errors yes (h k)) ->
            okp simplify_errors yes (map_res h names)).
  { intros B h H. eapply okp_imp; [apply okp_map with (P := fun k => In k (dkeys cols)) (Q := yes); [exact F|]|apply incl_refl|intros; exact I].
    intros k K. destruct (present _ _ _ K) as ([[v e] none] & E). exact (H k v e none E). }
  step; [apply M; intros k v e none ->; exact I|]. intros hs _.
  step; [apply M; intros k v e none ->; exact I|]. intros es _.
  step; [|intros rows _; exact I]. apply okp_map_all. intros i.
  step; [apply M; intros k v e none ->; cbn [of_option bind]; (step; [smember|]); intros x _; exact I|]. intros vs _.
  step; [|intros ess _; exact I].
  apply M. intros k v e none ->. cbn [of_option bind]. destruct none; [destruct makeAll; exact I|]. step; [smember|]. intros x _. exact I.
Qed.
Lemma simplified_okp : forall acos makeAll d, pokp simplify_errors yes (getSimplified acos makeAll false d).
Proof.
  intros acos makeAll d.
  assert (G : forall pm, pokp simplify_errors yes (X4DataSet_getSimplified acos (Some pm) (dkeys pm) makeAll false d)).
  { intros pm. unfold X4DataSet_getSimplified. destruct (ds_simplified d); [exact I|].
    assert (E : existsb (fun p => negb (smem p (dkeys pm))) (dkeys pm) = false).
    { destruct (existsb _ _) eqn:E; [|reflexivity]. apply existsb_exists in E. destruct E as (k & K & Z). apply negb_true_iff in Z.
      rewrite (proj2 (smem_In _ _) K) in Z. discriminate Z. }
    rewrite E. eapply pokp_bind; [apply keyed_okp|]. intros cols C. cbv beta in C. pstep; [|intros t _; exact I]. apply assemble_okp. rewrite C. apply incl_refl. }
  unfold getSimplified. cbv zeta. destruct (ds_class_of d); first [apply G|smem|idtac]; [|exact I].
  unfold X4DataSet_getSimplified. destruct (ds_simplified d); exact I.
Qed.

Definition simply_recorded (old : errors) (k : ds_key) (x : exn) : Prop := In (k, x) old \/ In x simple_recorded.
Lemma simple_okp : forall acos makeAll ds st errs s L, In ValueError L -> (forall k x, In (k, x) errs -> simply_recorded st k x) ->
  okp L (fun r => forall k x, In (k, x) (snd (fst r)) -> simply_recorded st k x) (fold_res (simplify_step acos makeAll) ds (ds, errs, s)).
Proof.
  intros acos makeAll ds st errs s L V H. apply okp_fold; [exact H|]. clear - V. intros [[ds' errs] s] [k d] H. cbn [fst snd] in H. unfold simplify_step.
  destruct (run _ s) as [r s'] eqn:E. pose proof (pokp_run _ _ _ _ s (simplified_okp acos makeAll d)) as K. rewrite E in K. cbn [fst] in K.
  destruct r as [d'|x]; [exact H|]. cbn [okp simplify_errors In] in K.
  destruct K as [<-|[<-|[<-|[<-|[<-|[]]]]]]; cbn [simplify_caught okp fst snd]; try assumption.
  all: apply (dset_inv _ _ key_eqb (simply_recorded st)); [exact key_eq|right; cbn [simple_recorded In]; tauto|exact H].
Qed.

(** ** Dictionaries that name everything *)

Section Named.
Context (c : codes) (e : env) (nm : names) (NM : naming c e nm).
Lemma part_named : forall p, PrintableLemmas.keyed c p -> okp [TypeError] yes (part_str (nm_compounds nm) p).
Proof.
  intros [s|p|] K; try exact I. destruct p as [[k|] s z a|s|z s a|z s a|z s a iso|code s z]; cbn [part_str pretty]; try exact I; try (now left).
  destruct (naming_compounds _ _ _ NM code (K _ _ _ eq_refl)) as ([|x row] & -> & R); [contradiction|]. exact I.
Qed.
Lemma first_named : forall d k, rows_filled d -> dhas str_eqb k d = true ->
  exists row x, dget str_eqb k d = Some row /\ idx row 0 = Ok x.
Proof.
  intros d k F H. unfold dhas in H. destruct (dget str_eqb k d) as [[|x row]|] eqn:E; [|eexists; eexists; split; reflexivity|discriminate].
  apply F in E. contradiction.
Qed.
Lemma type_named : forall r, okp [TypeError] yes (getReactionType (nm_quantities nm) (nm_modifiers nm) r).
Proof.
  intros r. unfold getReactionType. step; [apply join_toks_raises; now left|]. intros qt _.
  destruct (dget str_eqb qt (nm_quantities nm)) as [[|x row]|] eqn:E; [apply (naming_quantities _ _ _ NM) in E; contradiction|exact I|]. cbv zeta. step.
  - destruct (find _ _) as [i|] eqn:F; [|exact I]. apply find_some in F. destruct F as [_ F].
    destruct (first_named _ _ (naming_modifiers _ _ _ NM) F) as (row & x & -> & X). cbn [of_option bind]. rewrite X. exact I.
  - intros pre _. destruct (find _ _) as [i|] eqn:F; [|exact I]. apply find_some in F. destruct F as [_ F].
    destruct (first_named _ _ (naming_quantities _ _ _ NM) F) as (row & x & -> & X). cbn [of_option bind]. rewrite X. exact I.
Qed.
Lemma reaction_named : forall r, PrintableLemmas.kept c r -> okp [TypeError] yes (reaction_str (nm_compounds nm) (nm_quantities nm) (nm_modifiers nm) r).
Proof.
  intros r K. unfold reaction_str. step; [apply type_named|]. intros t _. step; [|intros p _; exact I]. unfold process_str.
  step; [exact (part_named _ (PrintableLemmas.kept_targ _ _ K))|]. intros a _. step; [exact (part_named _ (PrintableLemmas.kept_proj _ _ K))|]. intros b _.
  step; [destruct (truthy _); [exact (part_named _ (PrintableLemmas.kept_residual _ _ K))|exact I]|]. intros d _. exact I.
Qed.
Fixpoint element_named (x : element) {struct x} : Forall (PrintableLemmas.kept c) (element_reactions x) ->
  okp [TypeError] yes (element_str (nm_compounds nm) (nm_quantities nm) (nm_modifiers nm) x).
Proof.
  intros F. destruct x as [s|r|data].
  - exact I.
  - apply reaction_named. now inversion F.
  - cbn [element_str]. cbn [element_reactions] in F. induction data as [|j l IH]; [exact I|]. cbn [flat_map] in F. apply Forall_app in F. destruct F as [F1 F2].
    step; [exact (element_named j F1)|]. intros s _. step; [exact (IH F2)|]. intros rest _. exact I.
Qed.
Lemma m_str_named : forall m, PrintableLemmas.kept_all c m -> okp [TypeError] yes (m_str nm m).
Proof.
  intros [r|data|data] K; unfold m_str, measurement_str; [|exact (element_named (EIso data) K)|exact (element_named (EIso data) K)].
  apply reaction_named. now inversion K.
Qed.
Lemma stands_kept : forall raw n m, X4Entry e raw = Ok n -> stands_in n m -> PrintableLemmas.kept_all c m.
Proof.
  intros raw n m E (k & s & b & f & rs & p & t & I1 & I2 & I3 & I4).
  pose proof (PrintableLemmas.entry_kept c e (naming_grammars _ _ _ NM) raw n E _ _ I1 _ _ I2 _ _ I3) as H. cbn [PrintableLemmas.kept_field] in H.
  rewrite Forall_forall in H. exact (H _ I4).
Qed.
End Named.

(** ** Together *)

Lemma records_kept : forall old new, records old new -> kept old set_recorded new.
Proof. intros old new R k x J. destruct (R _ _ J) as [H|[-> | ->]]; [now left|right; now left|right; right; now left]. Qed.
Lemma entry_says : forall e raw n (Q : measurement -> Prop), X4Entry e raw = Ok n -> (forall m, stands_in n m -> Q m) -> right_entry Q n.
Proof.
  intros e raw n Q E S k s I. destruct (entry_right _ _ _ E k s I) as (A & R). split; [exact A|].
  intros k' x I' K. destruct (R _ _ I' K) as (b & -> & RB). exists b. split; [reflexivity|]. intros t v J. specialize (RB _ _ J).
  destruct v as [f|]; [|exact RB]. destruct RB as (A1 & A2 & A3 & A4 & A5 & A6). cbn [right_value]. repeat (split; [assumption|]). split; [|assumption].
  intros T. destruct (A5 T) as (p & rs & -> & _). exists p, rs. split; [reflexivity|]. intros [c [m tr]] C. apply S. subst. cbn [fst snd].
  exists (s_accnum s), s, b, p, rs, c, tr. auto.
Qed.
Lemma read_sets : forall nm e raw n errs, X4Entry e raw = Ok n -> numbered n ->
  okp set_errors (fun r => kept errs set_recorded (snd (fst r))) (getDataSets nm n errs).
Proof.
  intros nm e raw n errs E N. eapply okp_imp; [apply (sets_okp nm yes set_errors)|apply incl_refl|].
  - intros m _. apply (okp_incl _ _ _ _ _ (m_str_okp nm m)). intros x X. cbn [text_errors set_errors In] in *. tauto.
  - exact (entry_right _ _ _ E).
  - exact N.
  - right. now left.
  - intros r R. exact (records_kept _ _ R).
Qed.
Lemma read_sets_whole : forall nm e raw n errs, X4Entry e raw = Ok n -> numbered n -> has_heading n ->
  (forall m, stands_in n m -> exists t, m_str nm m = Ok t) ->
  okp [] (fun r => kept errs set_recorded (snd (fst r))) (getDataSets nm n errs).
Proof.
  intros nm e raw n errs E N H S. eapply okp_imp; [apply (sets_okp nm (says nm) [])|apply incl_refl|].
  - intros m (t & ->). exact I.
  - exact (entry_says _ _ _ _ E S).
  - exact N.
  - now left.
  - intros r R. exact (records_kept _ _ R).
Qed.
Lemma read_sets_named : forall c nm e raw n errs, naming c e nm -> X4Entry e raw = Ok n -> numbered n -> has_heading n ->
  okp [TypeError] (fun r => kept errs set_recorded (snd (fst r))) (getDataSets nm n errs).
Proof.
  intros c nm e raw n errs NM E N H. eapply okp_imp; [apply (sets_okp nm (PrintableLemmas.kept_all c) [TypeError])|apply incl_refl|].
  - intros m K. apply (okp_incl _ _ _ _ _ (m_str_named _ _ _ NM m K)). intros x X. now right.
  - apply (entry_says _ _ _ _ E). intros m S. exact (stands_kept _ _ _ NM _ _ _ E S).
  - exact N.
  - now left.
  - intros r R. exact (records_kept _ _ R).
Qed.
Lemma simple_sets : forall nm acos makeAll n errs s L, In ValueError L ->
  okp L (fun r => kept errs set_recorded (snd (fst r))) (getDataSets nm n errs) ->
  okp L (fun r => kept errs simple_recorded (snd (fst (fst r)))) (getSimplifiedDataSets nm acos makeAll n errs s).
Proof.
  intros nm acos makeAll n errs s L V G. unfold getSimplifiedDataSets. eapply okp_bind; [exact G|]. intros [[ds errs'] n'] K. cbn [fst snd] in K.
  eapply okp_bind; [apply (simple_okp acos makeAll ds errs errs' s L V)|].
  - intros k x J. destruct (K _ _ J) as [H|H]; [now left|right]. cbn [set_recorded simple_recorded In] in *. tauto.
  - intros [[ds2 errs2] s2] H. exact H.
Qed.
Lemma no_heading : forall nm e raw n errs, X4Entry e raw = Ok n -> ~ has_heading n -> getDataSets nm n errs = Raise KeyError.
Proof.
  intros nm e raw n errs E H. unfold getDataSets, deleted. rewrite getitem_one. destruct (dget tag_eqb _ _) as [s|] eqn:G; [|reflexivity]. cbn [of_option bind].
  unfold sub_bib at 1. destruct (dget str_eqb (lit "BIB") (s_dict s)) as [x|] eqn:B; [|reflexivity]. exfalso. apply H.
  destruct (entry_right _ _ _ E _ _ (dget_in _ _ _ _ _ _ tag_eq G)) as (_ & R). destruct (section_of _ _ _ R B) as (b & -> & _).
  exists s, b. rewrite getitem_one, G. split; [reflexivity|]. unfold sub_bib. now rewrite B.
Qed.
