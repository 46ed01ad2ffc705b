(** getSimplified: independence of the attributes of the parsers, alone and between threads. *)
From Coq Require Import String List Ascii NArith ZArith Bool Arith Lia.
From Verif.Model Require Import Py PyFloat Utilities Dicts Particle Reaction Field Section Entry Columns Dataset.
From Verif.Proofs Require Import ReactionLemmas ProgLemmas ColumnLemmas.
Import ListNotations.
Local Open Scope list_scope.
Local Open Scope nat_scope.

Definition columns_of (acos : float -> option float) (t : table) (parsers : list parser) : res (column * column * bool) :=
  vs <- map_res (fun p => value_of acos (snd p) t) parsers ;;
  v <- reduce_res condenseColumn vs ;;
  es <- map_res (fun p => error_of acos (snd p) t) parsers ;;
  e <- reduce_res condenseColumn es ;;
  if all_none (c_cells v) then Raise NoValuesGivenError else Ok (v, e, all_none (c_cells e)).

Definition simplified_with (acos : float -> option float) (parserMap : option (list (str * list parser)))
    (columnNames : list str) (makeAll failMissing : bool) (self : dataset) : res dataset :=
  if ds_simplified self then Ok self
  else match parserMap with
  | None => Ok self
  | Some pm =>
      if existsb (fun p => negb (smem p columnNames)) (dkeys pm) then Raise KeyError
      else
        cols <- map_res (fun e => c <- columns_of acos (ds_table self) (snd e) ;; Ok (fst e, c)) pm ;;
        t <- assemble makeAll failMissing (numrows (ds_table self)) cols columnNames ;;
        Ok (set_table self t true)
  end.

Definition simplified (acos : float -> option float) (makeAll failMissing : bool) (d : dataset) : res dataset :=
  match ds_class_of d with
  | CrossSection | Nubar | SpectrumAve | AngularDist | EnergyDist =>
      let pm := parser_map (ds_class_of d) in
      simplified_with acos (Some pm) (dkeys pm) makeAll failMissing d
  | DataSet => simplified_with acos None [] makeAll failMissing d
  | AnalyzingPower => Ok d
  | ResonanceInt | EnergyAngle => Raise NotImplementedError
  end.

Lemma read_columns_ends : forall f K acos t ps, (forall p, In p ps -> agrees f p t) ->
  ends f K (read_columns acos t ps) (columns_of acos t ps).
Proof.
  intros f K acos t ps A. unfold read_columns, columns_of.
  apply ends_seq; [apply ends_pmap; intros p Ip; apply getValue_ends, A, Ip|]. intros vs _.
  apply ends_seq; [apply ends_ret|]. intros v _.
  apply ends_seq; [apply ends_pmap; intros p Ip; apply getError_ends, A, Ip|]. intros es _.
  apply ends_seq; [apply ends_ret|]. intros e _.
  destruct (all_none (c_cells v)); apply ends_ret.
Qed.

Lemma simplified_with_ends : forall f K acos pm names mk fl self,
  (forall l, pm = Some l -> forall e p, In e l -> In p (snd e) -> agrees f p (ds_table self)) ->
  ends f K (X4DataSet_getSimplified acos pm names mk fl self) (simplified_with acos pm names mk fl self).
Proof.
  intros f K acos pm names mk fl self A. unfold X4DataSet_getSimplified, simplified_with.
  destruct (ds_simplified self); [apply ends_ret|]. destruct pm as [pm|]; [|apply ends_ret].
  destruct (existsb _ (dkeys pm)); [apply ends_ret|].
  apply ends_seq.
  - apply ends_pmap. intros e Ie. apply ends_seq; [apply read_columns_ends; intros p Ip; eapply A; eauto|].
    intros; apply ends_ret.
  - intros cols _. apply ends_seq; [apply ends_ret|]. intros; apply ends_ret.
Qed.

(** ** All parser objects of the module *)

Definition all_parsers : list parser :=
  incidentEnergyParserList ++ incidentMomentumParserList ++ outgoingEnergyParserList ++ tempParserList
  ++ csDataParserList ++ nubarParserList ++ angDistParserList ++ energyDistParserList ++ angleParserList.

Lemma all_parsers_numbered : map fst all_parsers = seq 0 (length all_parsers).
Proof. vm_compute. reflexivity. Qed.

Lemma nth_error_numbered : forall (A : Type) (l : list (nat * A)) k, map fst l = seq k (length l) ->
  forall x, In x l -> k <= fst x /\ nth_error l (fst x - k) = Some x.
Proof.
  intros A. induction l as [|y l IH]; intros k E x Ix; cbn in E.
  - contradiction.
  - injection E as E1 E2. destruct Ix as [<-|Ix].
    + rewrite E1, Nat.sub_diag. cbn. auto.
    + destruct (IH (S k) E2 x Ix) as [H1 H2]. split; [lia|].
      replace (fst x - k) with (S (fst x - S k)) by lia. exact H2.
Qed.

Definition all_ideal (t : table) : store :=
  fun id slot => match nth_error all_parsers id with Some p => ideal p t id slot | None => (-1)%Z end.

Lemma all_agree : forall t p, In p all_parsers -> agrees (all_ideal t) p t.
Proof.
  intros t p Ip slot c S. unfold all_ideal.
  destruct (nth_error_numbered _ all_parsers 0 all_parsers_numbered p Ip) as [_ H].
  rewrite Nat.sub_0_r in H. assert (H' : nth_error all_parsers (fst p) = Some p) by exact H.
  rewrite H'. unfold ideal. now rewrite S.
Qed.

Lemma parser_map_known : forall c e p, In e (parser_map c) -> In p (snd e) -> In p all_parsers.
Proof.
  assert (sub : forall l, In l [incidentEnergyParserList; outgoingEnergyParserList; tempParserList;
     csDataParserList; nubarParserList; angDistParserList; energyDistParserList; angleParserList] -> incl l all_parsers).
  { intros l I p Ip. unfold all_parsers. rewrite !in_app_iff. cbn [In] in I.
    repeat (destruct I as [<-|I]; [tauto|]). contradiction. }
  assert (spec : incl spectrumArgumentParserList all_parsers).
  { unfold spectrumArgumentParserList. apply incl_app; apply sub; cbn [In]; tauto. }
  intros c e p Ie Ip. destruct c; cbn [parser_map In] in Ie; try contradiction.
  all: repeat (destruct Ie as [<-|Ie]; [cbn [snd] in Ip; first [now apply spec | apply (sub _) in Ip; [assumption|cbn [In]; tauto]]|]).
  all: contradiction.
Qed.

Lemma getSimplified_ends : forall K acos mk fl d f, f = all_ideal (ds_table d) ->
  ends f K (getSimplified acos mk fl d) (simplified acos mk fl d).
Proof.
  intros K acos mk fl d f ->. unfold getSimplified, simplified.
  assert (H : forall l, Some (parser_map (ds_class_of d)) = Some l -> forall e p, In e l -> In p (snd e) ->
              agrees (all_ideal (ds_table d)) p (ds_table d)).
  { intros l E e p Ie Ip. injection E as <-. apply all_agree. eapply parser_map_known; eauto. }
  destruct (ds_class_of d); try apply ends_ret; apply simplified_with_ends; try assumption.
  intros l E. discriminate.
Qed.

Lemma run_getSimplified : forall acos mk fl d s, fst (run (getSimplified acos mk fl d) s) = simplified acos mk fl d.
Proof. intros. eapply ends_run. now apply getSimplified_ends. Qed.

(** ** Threads *)

Lemma cp_isMatch_headings : forall c i d d', t_labels d = t_labels d' -> t_units d = t_units d' ->
  cp_isMatch c i d = cp_isMatch c i d'.
Proof. intros c i d d' L U. unfold cp_isMatch, numcols. now rewrite L, U. Qed.
Lemma icol_headings : forall c d d', t_labels d = t_labels d' -> t_units d = t_units d' -> icol c d = icol c d'.
Proof.
  intros c d d' L U. unfold icol, firstMatch, numcols. rewrite L.
  assert (E : forall l, first_match_in c d l = first_match_in c d' l).
  { induction l as [|i l IH]; cbn [first_match_in]; [reflexivity|].
    rewrite (cp_isMatch_headings c _ d d' L U), IH. reflexivity. }
  now rewrite E.
Qed.
Lemma all_ideal_headings : forall d d' i j, t_labels d = t_labels d' -> t_units d = t_units d' ->
  all_ideal d i j = all_ideal d' i j.
Proof.
  intros d d' i j L U. unfold all_ideal, ideal. destruct (nth_error all_parsers i) as [p|]; [|reflexivity].
  destruct (slot_parser (snd p) j); [|reflexivity]. now apply icol_headings.
Qed.
Lemma agrees_headings : forall f p d d', t_labels d = t_labels d' -> t_units d = t_units d' -> agrees f p d -> agrees f p d'.
Proof. intros f p d d' L U A slot c S. rewrite (A _ _ S). now apply icol_headings. Qed.

Lemma getSimplified_ends_headings : forall K acos mk fl d d',
  t_labels (ds_table d) = t_labels (ds_table d') -> t_units (ds_table d) = t_units (ds_table d') ->
  ends (all_ideal (ds_table d')) K (getSimplified acos mk fl d) (simplified acos mk fl d).
Proof.
  intros K acos mk fl d d' L U. unfold getSimplified, simplified.
  assert (H : forall l, Some (parser_map (ds_class_of d)) = Some l -> forall e p, In e l -> In p (snd e) ->
              agrees (all_ideal (ds_table d')) p (ds_table d)).
  { intros l E e p Ie Ip. injection E as <-. apply (agrees_headings _ _ (ds_table d')); auto.
    apply all_agree. eapply parser_map_known; eauto. }
  destruct (ds_class_of d); try apply ends_ret; apply simplified_with_ends; try assumption.
  intros l E. discriminate.
Qed.

Lemma threads_same_headings : forall acos mk1 fl1 mk2 fl2 d1 d2 sched s r q s',
  t_labels (ds_table d1) = t_labels (ds_table d2) -> t_units (ds_table d1) = t_units (ds_table d2) ->
  interleave sched (getSimplified acos mk1 fl1 d1) (getSimplified acos mk2 fl2 d2) s = (Ret r, Ret q, s') ->
  r = simplified acos mk1 fl1 d1 /\ q = simplified acos mk2 fl2 d2.
Proof.
  intros acos mk1 fl1 mk2 fl2 d1 d2 sched s r q s' L U E.
  destruct (interleave_ends (all_ideal (ds_table d2)) _ _ sched none_known none_known
     (getSimplified acos mk1 fl1 d1) (getSimplified acos mk2 fl2 d2) _ _ s
     (getSimplified_ends_headings none_known acos mk1 fl1 d1 d2 L U)
     (getSimplified_ends none_known acos mk2 fl2 d2 _ eq_refl)
     (fun i j h => match h with end) (fun i j h => match h with end) _ _ _ E) as [H1 H2].
  split; [now apply H1|now apply H2].
Qed.
