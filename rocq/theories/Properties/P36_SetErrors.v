(** Property C100: which exceptions the data sets of an entry that has been read can end with. *)
From Coq Require Import String List Ascii NArith ZArith Bool Arith.
From Coq Require Import Floats.SpecFloat.
From Verif.Model Require Import Py PyFloat Utilities Dicts Particle Reaction Field Section Entry Columns Dataset.
From Verif.Spec Require Import Printable Damage.
From Verif.Proofs Require Import DamageLemmas SetErrorLemmas.
From Verif.Proofs Require PrintableLemmas PrintableWell.
From Verif.Model Require Shipped.
From Verif.Properties Require P12_Names P24_Printable.
From Verif.Properties Require Import P35_Damage.
Import ListNotations.
Local Open Scope string_scope.
Local Open Scope list_scope.
Local Open Scope nat_scope.

(** Whatever the texts were, if only X4Entry has read them: getDataSets gives the data sets or
    raises KeyError or TypeError, and it records IndexError and NotImplementedError only. *)
Theorem C100_sets : forall nm e texts n errs, X4Entry e texts = Ok n -> numbered n ->
  ends_with set_errors (getDataSets nm n errs) /\
  forall ds errs' n', getDataSets nm n errs = Ok (ds, errs', n') -> kept errs set_recorded errs'.
Proof.
  intros nm e texts n errs E N. pose proof (read_sets nm e texts n errs E N) as H. split; [exact (okp_ends _ _ _ _ H)|].
  intros ds errs' n' G. rewrite G in H. exact H.
Qed.
Print Assumptions C100_sets.

(** If entry[1]['BIB'] is there and every reaction can be printed, nothing is raised. *)
Theorem C100_whole : forall nm e texts n errs, X4Entry e texts = Ok n -> numbered n -> has_heading n ->
  (forall m, stands_in n m -> exists t, m_str nm m = Ok t) ->
  exists ds errs' n', getDataSets nm n errs = Ok (ds, errs', n') /\ kept errs set_recorded errs'.
Proof.
  intros nm e texts n errs E N H S. pose proof (read_sets_whole nm e texts n errs E N H S) as G.
  destruct (getDataSets nm n errs) as [[[ds errs'] n']|x]; [|destruct G]. exists ds, errs', n'. split; [reflexivity|exact G].
Qed.
Print Assumptions C100_whole.

(** If it is not there, there are no data sets, whatever the other subentries are. *)
Theorem C100_no_heading : forall nm e texts n errs, X4Entry e texts = Ok n -> ~ has_heading n ->
  getDataSets nm n errs = Raise KeyError.
Proof. exact no_heading. Qed.
Print Assumptions C100_no_heading.

(** getSimplifiedDataSets raises ValueError besides, and records TypeError and NoValuesGivenError
    besides; [acos] is math.acos, [s] whatever the parsers remember. *)
Theorem C100_simplified : forall nm acos makeAll e texts n errs s, X4Entry e texts = Ok n -> numbered n ->
  ends_with simple_errors (getSimplifiedDataSets nm acos makeAll n errs s) /\
  forall ds errs' n' s', getSimplifiedDataSets nm acos makeAll n errs s = Ok (ds, errs', n', s') -> kept errs simple_recorded errs'.
Proof.
  intros nm acos makeAll e texts n errs s E N. pose proof (read_sets nm e texts n errs E N) as H.
  assert (G : okp simple_errors (fun r => kept errs set_recorded (snd (fst r))) (getDataSets nm n errs))
    by (apply (okp_incl _ _ _ _ _ H); intros x X; cbn [set_errors simple_errors In] in *; tauto).
  pose proof (simple_sets nm acos makeAll n errs s simple_errors ltac:(cbn [simple_errors In]; tauto) G) as K.
  split; [exact (okp_ends _ _ _ _ K)|]. intros ds errs' n' s' Z. rewrite Z in K. exact K.
Qed.
Print Assumptions C100_simplified.
Theorem C100_simplified_whole : forall nm acos makeAll e texts n errs s, X4Entry e texts = Ok n -> numbered n -> has_heading n ->
  (forall m, stands_in n m -> exists t, m_str nm m = Ok t) ->
  ends_with [ValueError] (getSimplifiedDataSets nm acos makeAll n errs s).
Proof.
  intros nm acos makeAll e texts n errs s E N H S. pose proof (read_sets_whole nm e texts n errs E N H S) as G.
  assert (G' : okp [ValueError] (fun r => kept errs set_recorded (snd (fst r))) (getDataSets nm n errs)) by (apply (okp_incl _ _ _ _ _ G); intros x []).
  exact (okp_ends _ _ _ _ (simple_sets nm acos makeAll n errs s [ValueError] ltac:(now left) G')).
Qed.
Print Assumptions C100_simplified_whole.

(** With dictionaries that name every compound and have no empty row, KeyError means that
    entry[1]['BIB'] is not there, and nothing else. *)
Theorem C100_key_error : forall c nm e texts n errs, naming c e nm -> X4Entry e texts = Ok n -> numbered n ->
  (getDataSets nm n errs = Raise KeyError <-> ~ has_heading n).
Proof.
  intros c nm e texts n errs NM E N. split; [|exact (no_heading nm e texts n errs E)].
  intros G H. pose proof (read_sets_named c nm e texts n errs NM E N H) as K. rewrite G in K. destruct K as [K|[]]. discriminate K.
Qed.
Print Assumptions C100_key_error.
(** TypeError is left, for reactions such as (92-U-235(XN,F),,SIG) within a combination; and nothing
    is left if the reactions are proper (Spec/Printable.v). *)
Theorem C100_named : forall c nm e texts n errs, naming c e nm -> X4Entry e texts = Ok n -> numbered n -> has_heading n ->
  ends_with [TypeError] (getDataSets nm n errs) /\
  forall acos makeAll s, ends_with [TypeError; ValueError] (getSimplifiedDataSets nm acos makeAll n errs s).
Proof.
  intros c nm e texts n errs NM E N H. pose proof (read_sets_named c nm e texts n errs NM E N H) as K. split; [exact (okp_ends _ _ _ _ K)|].
  intros acos makeAll s. refine (okp_ends _ _ _ _ (simple_sets nm acos makeAll n errs s [TypeError; ValueError] ltac:(right; now left) _)).
  apply (okp_incl _ _ _ _ _ K). intros x [<-|[]]. now left.
Qed.
Print Assumptions C100_named.
Theorem C100_proper : forall c nm e texts n errs, naming c e nm -> X4Entry e texts = Ok n -> numbered n -> has_heading n ->
  (forall m r, stands_in n m -> In r (reactions_in m) -> proper r) ->
  (exists ds errs' n', getDataSets nm n errs = Ok (ds, errs', n') /\ kept errs set_recorded errs') /\
  forall acos makeAll s, ends_with [ValueError] (getSimplifiedDataSets nm acos makeAll n errs s).
Proof.
  intros c nm e texts n errs NM E N H P.
  assert (S : forall m, stands_in n m -> exists t, m_str nm m = Ok t).
  { intros m S. exact (proj1 (PrintableLemmas.measurement_ok c e nm NM m (stands_kept c e nm NM texts n m E S) (fun r => P m r S))). }
  split; [exact (C100_whole nm e texts n errs E N H S)|]. intros acos makeAll s. exact (C100_simplified_whole nm acos makeAll e texts n errs s E N H S).
Qed.
Print Assumptions C100_proper.

(** ** Each of them occurs *)

Definition no_names : names := mkNames [] [] [].
(** An acos that refuses what math.acos refuses. *)
Definition an_acos (x : float) : option float := if SFleb (fabs x) f1 then Some fzero else None.
Definition full_entry (number reaction : string) (common : list string) (data : list string) : list str :=
  [join [nl] ([lit "SUBENT        10001" ++ lit number ++ lit "   20000101"] ++ map lit ["BIB                  1          1"]
              ++ [lit "REACTION   " ++ lit reaction] ++ map lit (["ENDBIB"] ++ common ++ data ++ ["ENDSUBENT"]))].
Definition one_row (label unit value : string) : list string :=
  ["DATA                 1          1"; label; unit; value; "ENDDATA              3"].
Definition sig := "(92-U-235(N,F),,SIG)".
Definition set_damage (x : exn) : list str :=
  match x with
  | KeyError => full_entry "002" sig [] (one_row "DATA" "B" "1.")
  | TypeError => full_entry "001" "((92-U-235(XN,F),,SIG)/(92-U-235(XN,F),,DA))" [] (one_row "DATA" "B" "1.")
  | ValueError => full_entry "001" "(92-U-235(N,EL),,DA)" []
                    ["DATA                 3          1"; "EN         COS        DATA"; "MEV        NO-DIM     B/SR"; "1.         2.         1."; "ENDDATA              3"]
  | _ => []
  end.
Definition sets_of (texts : list str) := n <- X4Entry P12_Names.e1 texts ;; getDataSets no_names n [].
Definition simple_of (texts : list str) := n <- X4Entry P12_Names.e1 texts ;; getSimplifiedDataSets no_names an_acos false n [] store0.
(** Texts from which data sets cannot be made, although nothing is raised. *)
Definition record_damage (x : exn) : list str :=
  match x with
  | IndexError => full_entry "001" sig ["COMMON               3          1"; "EN        1E1        2E2        2"; "MEV        MEV        MEV"; "1.         1.         1."; "ENDCOMMON            3"]
                    (one_row "DATA" "B" "1.")
  | NotImplementedError => full_entry "001" "((92-U-235(N,F),,SIG)/(92-U-235(N,F),,DA))" [] (one_row "DATA" "B" "1.")
  | TypeError => full_entry "001" sig [] ["DATA                 2          1"; "EN         DATA"; "MEV        B*RT-EV"; "1.         1."; "ENDDATA              3"]
  | _ => full_entry "001" sig [] (one_row "DATA" "FOO" "1.")
  end.
Definition recorded_by {A} (r : res (datasets * errors * A)) : list exn := match r with Ok (_, errs, _) => map snd errs | Raise _ => [] end.
Definition recorded_simply {A B} (r : res (datasets * errors * A * B)) : list exn := match r with Ok (_, errs, _, _) => map snd errs | Raise _ => [] end.

Definition has_numbers (n : entry) : bool := forallb (fun ks => match fst ks with Some _ => true | None => false end) (n_subs n).
Lemma numbered_is : forall n, has_numbers n = true -> numbered n.
Proof. intros n H s I. unfold has_numbers in H. rewrite forallb_forall in H. specialize (H _ I). discriminate H. Qed.
Definition read_well (texts : list str) : bool := match X4Entry P12_Names.e1 texts with Ok n => has_numbers n | Raise _ => false end.
Lemma read_well_is : forall A texts (f : entry -> res A), read_well texts = true ->
  exists n, X4Entry P12_Names.e1 texts = Ok n /\ numbered n /\ (n <- X4Entry P12_Names.e1 texts ;; f n) = f n.
Proof.
  intros A texts f H. unfold read_well in H. destruct (X4Entry P12_Names.e1 texts) as [n|x]; [|discriminate]. exists n.
  split; [reflexivity|]. split; [exact (numbered_is _ H)|reflexivity].
Qed.

(** The exceptions of the tables are exactly those that occur. *)
Theorem C100_sets_exact : forall x, In x set_errors <->
  exists nm e texts n errs, X4Entry e texts = Ok n /\ numbered n /\ getDataSets nm n errs = Raise x.
Proof.
  intros x. split.
  - intros I. assert (H : forallb (fun x => read_well (set_damage x) && raises x (sets_of (set_damage x))) set_errors = true) by (vm_compute; reflexivity).
    rewrite forallb_forall in H. specialize (H _ I). apply andb_true_iff in H. destruct H as [W R]. apply raises_is in R.
    destruct (read_well_is _ _ (fun n => getDataSets no_names n []) W) as (n & E & N & G).
    exists no_names, P12_Names.e1, (set_damage x), n, []. split; [exact E|]. split; [exact N|]. rewrite <- G. exact R.
  - intros (nm & e & texts & n & errs & E & N & G). destruct (proj1 (C100_sets nm e texts n errs E N)) as [(f & Z)|(y & Z & I)]; congruence.
Qed.
Print Assumptions C100_sets_exact.
Theorem C100_simplified_exact : forall x, In x simple_errors <->
  exists nm acos makeAll e texts n errs s, X4Entry e texts = Ok n /\ numbered n /\ getSimplifiedDataSets nm acos makeAll n errs s = Raise x.
Proof.
  intros x. split.
  - intros I. assert (H : forallb (fun x => read_well (set_damage x) && raises x (simple_of (set_damage x))) simple_errors = true) by (vm_compute; reflexivity).
    rewrite forallb_forall in H. specialize (H _ I). apply andb_true_iff in H. destruct H as [W R]. apply raises_is in R.
    destruct (read_well_is _ _ (fun n => getSimplifiedDataSets no_names an_acos false n [] store0) W) as (n & E & N & G).
    exists no_names, an_acos, false, P12_Names.e1, (set_damage x), n, [], store0. split; [exact E|]. split; [exact N|]. rewrite <- G. exact R.
  - intros (nm & acos & makeAll & e & texts & n & errs & s & E & N & G).
    destruct (proj1 (C100_simplified nm acos makeAll e texts n errs s E N)) as [(f & Z)|(y & Z & I)]; congruence.
Qed.
Print Assumptions C100_simplified_exact.

(** So are the exceptions recorded, for an entry that has recorded none before. *)
Lemma recorded_in : forall x (l : list exn), existsb (exn_eqb x) l = true -> In x l.
Proof. intros x l H. apply existsb_exists in H. destruct H as (y & Y & E). replace x with y; [exact Y|]. destruct x, y; first [reflexivity|discriminate E]. Qed.
Theorem C100_recorded_exact : forall x, In x set_recorded <->
  exists nm e texts n ds errs' n', X4Entry e texts = Ok n /\ numbered n /\ getDataSets nm n [] = Ok (ds, errs', n') /\ exists k, In (k, x) errs'.
Proof.
  intros x. split.
  - intros I. assert (H : forallb (fun x => read_well (record_damage x) && existsb (exn_eqb x) (recorded_by (sets_of (record_damage x)))) set_recorded = true) by (vm_compute; reflexivity).
    rewrite forallb_forall in H. specialize (H _ I). apply andb_true_iff in H. destruct H as [W R]. apply recorded_in in R.
    destruct (read_well_is _ _ (fun n => getDataSets no_names n []) W) as (n & E & N & G). unfold sets_of in R. rewrite G in R.
    destruct (getDataSets no_names n []) as [[[ds errs'] n']|y] eqn:D; [|destruct R]. cbn [recorded_by] in R. apply in_map_iff in R. destruct R as ([k y] & <- & K).
    exists no_names, P12_Names.e1, (record_damage (snd (k, y))), n, ds, errs', n'. split; [exact E|]. split; [exact N|]. split; [exact D|]. exists k. exact K.
  - intros (nm & e & texts & n & ds & errs' & n' & E & N & G & k & K). destruct (proj2 (C100_sets nm e texts n [] E N) _ _ _ G _ _ K) as [[]|H]. exact H.
Qed.
Print Assumptions C100_recorded_exact.
Theorem C100_simply_recorded_exact : forall x, In x simple_recorded <->
  exists nm acos makeAll e texts n ds errs' n' s s', X4Entry e texts = Ok n /\ numbered n /\
    getSimplifiedDataSets nm acos makeAll n [] s = Ok (ds, errs', n', s') /\ exists k, In (k, x) errs'.
Proof.
  intros x. split.
  - intros I. assert (H : forallb (fun x => read_well (record_damage x) && existsb (exn_eqb x) (recorded_simply (simple_of (record_damage x)))) simple_recorded = true) by (vm_compute; reflexivity).
    rewrite forallb_forall in H. specialize (H _ I). apply andb_true_iff in H. destruct H as [W R]. apply recorded_in in R.
    destruct (read_well_is _ _ (fun n => getSimplifiedDataSets no_names an_acos false n [] store0) W) as (n & E & N & G). unfold simple_of in R. rewrite G in R.
    destruct (getSimplifiedDataSets no_names an_acos false n [] store0) as [[[[ds errs'] n'] s']|y] eqn:D; [|destruct R]. cbn [recorded_simply] in R.
    apply in_map_iff in R. destruct R as ([k y] & <- & K).
    exists no_names, an_acos, false, P12_Names.e1, (record_damage (snd (k, y))), n, ds, errs', n', store0, s'. split; [exact E|]. split; [exact N|]. split; [exact D|]. exists k. exact K.
  - intros (nm & acos & makeAll & e & texts & n & ds & errs' & n' & s & s' & E & N & G & k & K).
    destruct (proj2 (C100_simplified nm acos makeAll e texts n [] s E N) _ _ _ _ G _ _ K) as [[]|H]. exact H.
Qed.
Print Assumptions C100_simply_recorded_exact.

(** An entry that meets the hypotheses of C100_whole: two reactions of different kinds under one
    number are recorded, not raised; one table is simplified. *)
Definition whole_texts : list str :=
  with_field "TITLE" ["A text"] ++ full_entry "002" "((92-U-235(N,F),,SIG)/(92-U-235(N,F),,DA))" [] (one_row "DATA" "B" "1.")
  ++ full_entry "003" sig [] ["DATA                 2          1"; "EN         DATA"; "MEV        B"; "1.         1."; "ENDDATA              3"].
Definition printed (nm : names) (n : entry) : bool :=
  forallb (fun ks => forallb (fun kx => match snd kx with
    | SBib b => forallb (fun kf => match snd kf with
        | Some (FReaction _ rs) => forallb (fun pr => match m_str nm (fst (snd pr)) with Ok _ => true | Raise _ => false end) rs
        | _ => true end) (b_dict b)
    | SData _ => true end) (s_dict (snd ks))) (n_subs n).
Lemma printed_is : forall nm n, printed nm n = true -> forall m, stands_in n m -> exists t, m_str nm m = Ok t.
Proof.
  intros nm n P m (k & s & b & f & rs & p & t & I1 & I2 & I3 & I4). unfold printed in P.
  rewrite forallb_forall in P. specialize (P _ I1). cbn [snd] in P. rewrite forallb_forall in P. specialize (P _ I2). cbn [snd] in P.
  rewrite forallb_forall in P. specialize (P _ I3). cbn [snd] in P. rewrite forallb_forall in P. specialize (P _ I4). cbn [fst snd] in P.
  destruct (m_str nm m) as [u|x]; [eauto|discriminate].
Qed.
Definition heading_there (n : entry) : bool :=
  match entry_getitem n (EInt 1) with Ok s => match sub_bib s with Ok _ => true | Raise _ => false end | Raise _ => false end.
Lemma heading_is : forall n, heading_there n = true -> has_heading n.
Proof.
  intros n H. unfold heading_there in H. destruct (entry_getitem n (EInt 1)) as [s|x] eqn:G; [|discriminate]. destruct (sub_bib s) as [b|x] eqn:B; [|discriminate].
  exists s, b. auto.
Qed.
Example C100_example : exists n, X4Entry P12_Names.e1 whole_texts = Ok n /\ numbered n /\ has_heading n /\
  (forall m, stands_in n m -> exists t, m_str no_names m = Ok t) /\
  match getSimplifiedDataSets no_names an_acos false n [] store0 with
  | Ok (ds, errs, _, _) => map fst ds = [(lit "10001", Some (lit "10001003"), " "%char)] /\
                           errs = [((lit "10001", Some (lit "10001002"), " "%char), NotImplementedError)]
  | Raise _ => False
  end.
Proof.
  assert (H : match X4Entry P12_Names.e1 whole_texts with Ok n => has_numbers n && heading_there n && printed no_names n | Raise _ => false end = true) by (vm_compute; reflexivity).
  assert (G : match simple_of whole_texts with
              | Ok (ds, errs, _, _) => map fst ds = [(lit "10001", Some (lit "10001003"), " "%char)] /\
                                       errs = [((lit "10001", Some (lit "10001002"), " "%char), NotImplementedError)]
              | Raise _ => False
              end) by (vm_compute; split; reflexivity).
  unfold simple_of in G. destruct (X4Entry P12_Names.e1 whole_texts) as [n|x]; [|discriminate]. cbn [bind] in G. exists n.
  apply andb_true_iff in H. destruct H as [H P]. apply andb_true_iff in H. destruct H as [N D].
  split; [reflexivity|]. split; [exact (numbered_is _ N)|]. split; [exact (heading_is _ D)|]. split; [exact (printed_is _ _ P)|exact G].
Qed.
(** The same entry meets the hypotheses of C100_proper; and the TypeError of C100_named occurs. *)
Example C100_proper_example : naming Shipped.shipped P12_Names.e1 P24_Printable.named /\
  (exists n, X4Entry P12_Names.e1 whole_texts = Ok n /\ numbered n /\ has_heading n /\
     (forall m r, stands_in n m -> In r (reactions_in m) -> proper r)) /\
  exists n, X4Entry P12_Names.e1 (set_damage TypeError) = Ok n /\ numbered n /\ has_heading n /\
    getDataSets P24_Printable.named n [] = Raise TypeError.
Proof.
  split; [exact P24_Printable.C88_naming|]. split.
  - assert (H : match X4Entry P12_Names.e1 whole_texts with Ok n => has_numbers n && heading_there n && printed P24_Printable.named n | Raise _ => false end = true) by (vm_compute; reflexivity).
    destruct (X4Entry P12_Names.e1 whole_texts) as [n|x]; [|discriminate]. exists n.
    apply andb_true_iff in H. destruct H as [H P]. apply andb_true_iff in H. destruct H as [N D].
    split; [reflexivity|]. split; [exact (numbered_is _ N)|]. split; [exact (heading_is _ D)|]. intros m r S.
    destruct (printed_is _ _ P m S) as (t & T). exact (PrintableWell.measurement_proper _ m t T r).
  - assert (H : match X4Entry P12_Names.e1 (set_damage TypeError) with
                | Ok n => has_numbers n && heading_there n && raises TypeError (getDataSets P24_Printable.named n [])
                | Raise _ => false end = true) by (vm_compute; reflexivity).
    destruct (X4Entry P12_Names.e1 (set_damage TypeError)) as [n|x]; [|discriminate]. exists n.
    apply andb_true_iff in H. destruct H as [H P]. apply andb_true_iff in H. destruct H as [N D].
    split; [reflexivity|]. split; [exact (numbered_is _ N)|]. split; [exact (heading_is _ D)|]. exact (raises_is _ _ _ P).
Qed.
