(** What is shown when an entry that keeps to the format is printed. *)
From Coq Require Import String List Ascii NArith ZArith Bool Arith Lia Sorted Permutation.
From Verif.Model Require Import Py PyFloat Utilities Dicts Particle Reaction Field Section Entry Columns Dataset Pyparsing Grammars Print Show.
From Verif.Spec Require Import Text Exfor Tables DataSets Merging Codes Balance General Known GeneralKnown Names References Document Query ReadBack WellWritten Printable Shown Headers.
From Verif.Proofs Require Import StrLemmas NumLemmas IntLemmas ReactionLemmas DictLemmas ManagerLemmas FieldLemmas BibLemmas DataLemmas EntryLemmas EntryDataLemmas GrammarLemmas BalanceLemmas KnownLemmas GeneralLemmas IsomerLemmas MonitorLemmas AuthorLemmas InstituteLemmas ReferenceLemmas NamesExamples TextTableLemmas DocumentLemmas RetrieveLemmas ReadBackLemmas TableBackLemmas WellLemmas PrintableLemmas PrintableWell.
Import ListNotations.
Local Open Scope string_scope.
Local Open Scope list_scope.
Local Open Scope nat_scope.

(** ** Order of pointers *)

Lemma cinsert_sorted : forall x l, StronglySorted (fun p q => (N_of_ascii p < N_of_ascii q)%N) l -> ~ In x l ->
  StronglySorted (fun p q => (N_of_ascii p < N_of_ascii q)%N) (cinsert x l).
Proof.
  intros x l S N. induction S as [|y l S IH F]; cbn [cinsert]; [constructor; constructor|].
  unfold Py.code. destruct (N.leb_spec (N_of_ascii x) (N_of_ascii y)) as [L|L].
  - assert (X : (N_of_ascii x < N_of_ascii y)%N).
    { assert (N_of_ascii x <> N_of_ascii y); [|lia]. intro E. apply N. left.
      rewrite <- (ascii_N_embedding x), <- (ascii_N_embedding y). now rewrite E. }
    constructor; [now constructor|]. constructor; [exact X|]. eapply Forall_impl; [|exact F]. cbn. intros; lia.
  - constructor; [apply IH; intro; apply N; now right|]. rewrite Forall_forall in *. intros z I.
    apply (Permutation_in _ (cinsert_perm x l)) in I. destruct I as [<-|I]; [exact L|now apply F].
Qed.
Lemma csort_sorted : forall l, NoDup l -> StronglySorted (fun p q => (N_of_ascii p < N_of_ascii q)%N) (csort l).
Proof.
  induction 1 as [|x l N _ IH]; cbn [csort]; [constructor|]. apply cinsert_sorted; [exact IH|].
  intro I. now apply (Permutation_in _ (csort_perm l)) in I.
Qed.
Lemma appearing_iff : forall l q, In q (appearing l) <-> In q l.
Proof.
  induction l as [|x l IH]; intro q; [reflexivity|]. cbn [appearing In]. rewrite filter_In, IH. split.
  - intros [->|[I _]]; auto.
  - intros [->|I]; [now left|]. destruct (Ascii.eqb x q) eqn:E; [left; now apply Ascii.eqb_eq|right; split; [exact I|now apply negb_true_iff]].
Qed.
Lemma keys_sorted : forall fld f, X4PlainField fld = Ok f -> pointers_sorted fld (csort (dkeys (f_dict f))).
Proof.
  intros fld f P. split; [apply csort_sorted, (plain_nodup _ _ P)|]. intro p.
  change (" "%char) with sp. rewrite <- (appearing_iff (marks sp fld)), <- (plain_order _ _ P). split; apply Permutation_in; [|apply Permutation_sym]; apply csort_perm.
Qed.
Lemma plain_get_lines : forall fld f p, X4PlainField fld = Ok f -> In p (dkeys (f_dict f)) ->
  exists ls, dget Ascii.eqb p (f_dict f) = Some ls /\ plain_get f p = ls /\ pointer_lines fld p ls.
Proof.
  intros fld f p P I. unfold plain_get. destruct (dget Ascii.eqb p (f_dict f)) as [ls|] eqn:G.
  - exists ls. repeat split. pose proof (plain_pointers _ _ P) as Q. rewrite Forall_forall in Q.
    exact (Q (p, ls) (StrLemmas.dget_In _ Ascii.eqb_eq _ _ _ G)).
  - exfalso. apply (dget_None _ Ascii.eqb_eq) in G. contradiction.
Qed.
Lemma each_key : forall fld f (shows : ascii -> list str -> str -> Prop) (g : ascii -> str), X4PlainField fld = Ok f ->
  (forall p ls, dget Ascii.eqb p (f_dict f) = Some ls -> pointer_lines fld p ls -> shows p ls (g p)) ->
  forall ps, (forall p, In p ps -> In p (dkeys (f_dict f))) -> per_pointer fld shows ps (map g ps).
Proof.
  intros fld f shows g P H. induction ps as [|p ps IH]; intro I; cbn [map]; constructor.
  - destruct (plain_get_lines fld f p P) as (ls & G & _ & L); [apply I; now left|]. exists ls. split; [exact L|]. now apply H.
  - apply IH. intros q J. apply I. now right.
Qed.
Lemma csort_keys : forall (V : Type) (d : list (ascii * V)) p, In p (csort (dkeys d)) -> In p (dkeys d).
Proof. intros V d p. apply Permutation_in, csort_perm. Qed.

(** ** Fields *)

Lemma plain_field_shown : forall fld f, X4PlainField fld = Ok f -> plain_shown fld (plain_str f).
Proof.
  intros fld f P. exists (csort (dkeys (f_dict f))). eexists. split; [exact (keys_sorted _ _ P)|]. split; [|unfold plain_str; apply between_join].
  unfold plain_keys. apply (each_key fld f); [exact P| |intros p I; now apply csort_keys in I].
  intros p ls G L. exists (subfield_str ls). split; [apply subfield_text|]. unfold pointing, plain_get. rewrite G. reflexivity.
Qed.
Lemma title_field_shown : forall fld f, X4PlainField fld = Ok f -> title_shown fld (title_str f).
Proof.
  intros fld f P. exists (csort (dkeys (f_dict f))). eexists. split; [exact (keys_sorted _ _ P)|]. split; [|unfold title_str; apply between_join].
  unfold plain_keys. apply (each_key fld f); [exact P| |intros p I; now apply csort_keys in I].
  intros p ls G L. exists (subfield_str ls). split; [apply subfield_text|]. unfold plain_get. rewrite G. apply strip_trimmed.
Qed.

Lemma map_res_fun : forall (A B : Type) (f : A -> res B) (Q : A -> B -> Prop) l, (forall x, In x l -> exists y, f x = Ok y /\ Q x y) ->
  exists ys, map_res f l = Ok ys /\ Forall2 Q l ys.
Proof.
  intros A B f Q. induction l as [|x l IH]; intro H; [exists []; split; [reflexivity|constructor]|].
  destruct (H x (or_introl eq_refl)) as (y & Y & Qy). destruct IH as (ys & YS & F); [intros z I; apply H; now right|].
  exists (y :: ys). cbn [map_res]. rewrite Y. cbn [bind]. rewrite YS. split; [reflexivity|now constructor].
Qed.
Lemma map_res_keys : forall (V W : Type) (f : V -> res W) (d : list (ascii * V)) d',
  map_res (fun pl => r <- f (snd pl) ;; Ok (fst pl, r)) d = Ok d' -> dkeys d' = dkeys d.
Proof.
  intros V W f. induction d as [|[p v] d IH]; intros d' H; cbn [map_res] in H; [assert (d' = []) by congruence; now subst|].
  apply bind_ok in H. destruct H as (y & Y & H). apply bind_ok in H. destruct H as (ys & YS & H). apply bind_ok in Y. destruct Y as (r & R & Y).
  cbn [fst] in Y. assert (d' = (p, r) :: ys) by congruence. subst d'. cbn [dkeys map fst]. f_equal. now apply IH.
Qed.
Lemma map_res_get : forall (V W : Type) (f : V -> res W) (d : list (ascii * V)) d' p v,
  map_res (fun pl => r <- f (snd pl) ;; Ok (fst pl, r)) d = Ok d' -> dget Ascii.eqb p d = Some v ->
  exists w, f v = Ok w /\ dget Ascii.eqb p d' = Some w.
Proof.
  intros V W f. induction d as [|[q v0] d IH]; intros d' p v H G; [discriminate G|]. cbn [map_res] in H.
  apply bind_ok in H. destruct H as (y & Y & H). apply bind_ok in H. destruct H as (ys & YS & H). apply bind_ok in Y. destruct Y as (r & R & Y).
  cbn [fst snd] in *. assert (d' = (q, r) :: ys) by congruence. subst d'. cbn [dget] in *. destruct (Ascii.eqb p q); [|now apply IH].
  assert (v0 = v) by congruence. subst v0. eauto.
Qed.

Lemma Forall2_imp : forall (A B : Type) (P Q : A -> B -> Prop) l m, (forall x y, P x y -> Q x y) -> Forall2 P l m -> Forall2 Q l m.
Proof. intros A B P Q l m H F. induction F; constructor; auto. Qed.

Section Fields.
Context (c : codes) (e : env) (D : well_dictionaries c e) (nm : names) (NM : naming c e nm).

Lemma reaction_line : forall text, reaction_code c text -> exists m line, reaction_of_text e text = Ok (m, PTok line) /\
  (exists s, m_str nm m = Ok s) /\ exists s, m_repr nm m = Ok s.
Proof.
  intros text R. destruct (reaction_reads c e D text R) as (m & line & E & F).
  assert (X : exists l, line = PTok l).
  { destruct R as [(r & l & G & K & Fi)|[(r & n & q & l & G & S & Fi)|(ts & l0 & l & C & Fi & A)]]; exists l.
    - destruct (general_made c (well_compounds _ _ D) (e_compounds e) r G K (WellWritten.well_named _ _ D)) as (rx & T & J & pss & rs & X & M & _).
      pose proof (general_field c (well_particles _ _ D) (well_compounds _ _ D) e r l text rx (well_grammars _ _ D) G Fi X). congruence.
    - destruct (states_text c (well_particles _ _ D) (well_compounds _ _ D) e r n q l text (well_grammars _ _ D) (WellWritten.well_named _ _ D) (well_depth _ _ D) G S Fi) as (data & E' & _). congruence.
    - destruct (states_combination c (well_particles _ _ D) (well_compounds _ _ D) e ts l0 l text (well_grammars _ _ D) (WellWritten.well_named _ _ D) (well_depth _ _ D) C Fi A) as (data & E' & _). congruence. }
  destruct X as (l & ->). exists m, l. split; [exact E|].
  apply (read_measurement c e nm NM text m (PTok l) E). intros r I. exact (fair_proper c m r F I).
Qed.

Lemma reaction_field_shown : forall fld, fld <> [] -> written_reactions c fld ->
  exists f rs t, X4ReactionField e fld = Ok (f, rs) /\ reaction_field_str nm rs = Ok t /\ reactions_shown e nm fld t.
Proof.
  intros fld N W. destruct (reactions_total c e D fld N W) as (f & rs & E & _). assert (P := reaction_field_plain _ _ _ _ E).
  unfold X4ReactionField in E. rewrite P in E. cbn [bind] in E. apply bind_ok in E. destruct E as (rs' & M & E).
  assert (rs' = rs) by congruence. subst rs'. clear E.
  assert (K : dkeys rs = dkeys (f_dict f)) by exact (map_res_keys _ _ (fun ls => reaction_of_text e (subfield_str ls)) _ _ M).
  assert (NE : rs <> []). { intros ->. destruct (plain_first _ _ P) as (p & ps & ls & d & _ & Q). rewrite Q in K. discriminate K. }
  assert (X : exists ls, map_res (fun p => r <- of_option KeyError (dget Ascii.eqb p rs) ;;
                              s <- m_str nm (fst r) ;;
                              if Ascii.eqb p sp then Ok s
                              else match snd r with
                                   | PTok [] => Ok (lit "[" ++ [p] ++ lit "] " ++ s)
                                   | PTok line => Ok (lit "[" ++ [p] ++ lit "] " ++ s ++ lit ", " ++ line)
                                   | PGroup _ => Raise OutsideModel
                                   end) (csort (dkeys rs)) = Ok ls /\
    per_pointer fld (fun p ls t => exists text m line s, pointer_text ls text /\ reaction_of_text e text = Ok (m, PTok line) /\
      m_str nm m = Ok s /\
      t = pointing p (s ++ if Ascii.eqb p " " then [] else match line with [] => [] | _ => tx ", " ++ line end)) (csort (dkeys rs)) ls).
  { apply map_res_fun. intros p I. apply csort_keys in I. rewrite K in I.
    destruct (plain_get_lines fld f p P I) as (ls & G & _ & L).
    destruct (map_res_get _ _ (fun ls => reaction_of_text e (subfield_str ls)) _ _ p ls M G) as (r & R & G'). rewrite G'. cbn [of_option bind].
    destruct (reaction_line _ (W p ls _ L (subfield_text ls))) as (m & line & R' & (s & S) & _).
    assert (r = (m, PTok line)) by congruence. subst r. cbn [fst snd]. rewrite S. cbn [bind]. unfold pointing.
    change (" "%char) with sp. destruct (Ascii.eqb p sp) eqn:Q.
    - exists s. split; [reflexivity|]. exists ls. split; [exact L|]. exists (subfield_str ls), m, line, s. change (" "%char) with sp. rewrite ?Q. rewrite ?app_nil_r. repeat split; auto. apply subfield_text.
    - destruct line as [|a line].
      + eexists. split; [reflexivity|]. exists ls. split; [exact L|]. exists (subfield_str ls), m, [], s. change (" "%char) with sp. rewrite ?Q. rewrite ?app_nil_r. repeat split; auto. apply subfield_text.
      + eexists. split; [reflexivity|]. exists ls. split; [exact L|]. exists (subfield_str ls), m, (a :: line), s. change (" "%char) with sp. rewrite ?Q. repeat split; auto. apply subfield_text. }
  destruct X as (ls & X & Y). exists f, rs, (join (lit "; ") ls). split; [|split].
  - unfold X4ReactionField. rewrite P. cbn [bind]. now rewrite M.
  - unfold reaction_field_str. rewrite X. cbn [bind]. destruct rs; [contradiction|reflexivity].
  - exists (csort (dkeys rs)), ls. split; [rewrite K; exact (keys_sorted _ _ P)|]. split; [exact Y|apply between_join].
Qed.

Lemma monitor_text_shown : forall text, monitor_text c text -> exists x t, monitor_reaction e text = Ok x /\ monitor_str nm x = Ok t /\ monitor_shown e nm text t.
Proof.
  assert (SHOW : forall text m line h s, monitor_reaction e text = Ok (m, PTok line, h) ->
    match m with Some m => m_repr nm m = Ok s | None => s = tx "None" end ->
    exists x t, monitor_reaction e text = Ok x /\ monitor_str nm x = Ok t /\ monitor_shown e nm text t).
  { intros text m line h s R S.
    assert (S' : match m with Some m => m_repr nm m | None => Ok (lit "None") end = Ok s) by (destruct m; [exact S|now subst]).
    eexists _, _. split; [exact R|]. unfold monitor_str. cbv iota beta. rewrite S'. cbn [bind]. split; [reflexivity|].
    exists m, line, h, s. split; [exact R|]. split; [exact S|]. reflexivity. }
  intros text [rest N R|n rest N M R|t N M].
  - destruct (reaction_line _ R) as (m & line & E & _ & s & S). apply (SHOW _ _ _ _ s (monitor_plain e rest _ N E)). exact S.
  - destruct (reaction_line _ R) as (m & line & E & _ & s & S). apply (SHOW _ _ _ _ s (monitor_headed e n rest _ N M E)). exact S.
  - apply (SHOW _ _ _ _ (tx "None") (MonitorLemmas.monitor_remark e t N M)). reflexivity.
Qed.

Lemma pairs_keys : forall (V : Type) (R : ascii -> V -> list ascii -> Prop) (d : list (ascii * V)) ts,
  Forall2 (fun pl t => R (fst pl) (snd pl) t) d ts -> Forall2 (fun p t => exists v, In (p, v) d /\ R p v t) (dkeys d) ts.
Proof.
  intros V R d ts F. induction F as [|[p v] t d ts H F IH]; cbn [dkeys map fst]; constructor.
  - exists v. split; [now left|exact H].
  - clear - IH. unfold dkeys in IH. induction IH as [|q t ps ts (w & I & H) _ IH]; constructor; [exists w; split; [now right|exact H]|exact IH].
Qed.

Definition shown_pointer := (fun pl : ascii * monitor => xs <- map_res (monitor_str nm) (snd pl) ;;
                       let s := lit "[" ++ join (lit ", ") xs ++ lit "]" in
                       Ok (if Ascii.eqb (fst pl) sp then s else lit "[" ++ [fst pl] ++ lit "] " ++ s)).
Lemma monitor_field_shown : forall fld, fld <> [] -> written_monitors c fld ->
  exists f ms t, X4MonitorField e fld = Ok (f, ms) /\ monitor_field_str nm ms = Ok t /\ monitors_shown e nm fld t.
Proof.
  intros fld N W. destruct (plain_field_total fld N) as (f & P). pose proof (plain_pointers _ _ P) as Q.
  pose proof (plain_order _ _ P) as O. change sp with " "%char in O.
  set (show := fun (p : ascii) (ls : list (list ascii)) (t : list ascii) => exists before remark groups texts xs,
      ls = concat (before ++ groups) /\ Forall2 remark_item before remark /\ length before <= 1 /\ Forall2 monitor_item groups texts /\
      Forall2 (monitor_shown e nm) (remark ++ texts) xs /\ t = pointing p (tx "[" ++ Names.between (tx ", ") xs ++ tx "]")).
  assert (X : exists ms ts, map_res (fun pl => ds <- monitor_lines (snd pl) [] ;; l <- map_res (monitor_reaction e) ds ;; Ok (fst pl, l)) (f_dict f) = Ok ms /\
     map_res shown_pointer ms = Ok ts /\
     Forall2 (fun pl t => pointer_lines fld (fst pl) (snd pl) /\ show (fst pl) (snd pl) t) (f_dict f) ts).
  { clear P O. induction Q as [|[p ls] d H _ (ms & ts & E1 & E2 & F)]; [exists [], []; repeat split; constructor|]. cbn [fst snd] in H.
    destruct (W p ls H) as (before & remark & groups & texts & E & B & L & G & A).
    assert (Y : exists l xs, map_res (monitor_reaction e) (remark ++ texts) = Ok l /\ map_res (monitor_str nm) l = Ok xs /\ Forall2 (monitor_shown e nm) (remark ++ texts) xs).
    { clear - A D NM. induction A as [|t l T _ (l' & xs & A1 & A2 & A3)]; [exists [], []; repeat split; constructor|].
      destruct (monitor_text_shown t T) as (x & s & M1 & M2 & M3). exists (x :: l'), (s :: xs). cbn [map_res]. rewrite M1, M2. cbn [bind]. rewrite A1, A2. cbn [bind].
      repeat split. now constructor. }
    destruct Y as (l & xs & Y1 & Y2 & Y3).
    eexists ((p, l) :: ms), (_ :: ts). split.
    { cbn [map_res fst snd]. rewrite E at 1. rewrite (monitor_items _ _ _ _ B L G). cbn [bind]. rewrite Y1. cbn [bind]. rewrite E1. reflexivity. }
    cbn [map_res].  unfold shown_pointer at 1. cbn [snd fst]. rewrite Y2. cbn [bind]. rewrite E2. cbn [bind]. split; [reflexivity|]. constructor; [|exact F]. cbn [fst snd]. split; [exact H|].
    exists before, remark, groups, texts, xs. repeat split; auto. }
  destruct X as (ms & ts & E1 & E2 & F). exists f, ms, (join (lit "; ") ts). split; [|split].
  - unfold X4MonitorField. rewrite P. cbn [bind]. rewrite E1. reflexivity.
  - unfold monitor_field_str. fold shown_pointer. rewrite E2. cbn [bind]. destruct ms; [|reflexivity]. exfalso.
    destruct (plain_first _ _ P) as (p & ps & ls & d & _ & Z). rewrite Z in E1. cbn [map_res] in E1. apply bind_ok in E1. destruct E1 as (y & _ & E1).
    apply bind_ok in E1. destruct E1 as (ys & _ & E1). discriminate E1.
  - exists ts. split; [|apply between_join]. unfold per_pointer. rewrite <- O.
    pose proof (pairs_keys _ (fun p ls t => pointer_lines fld p ls /\ show p ls t) _ _ F) as K.
    eapply Forall2_imp; [|exact K]. cbn beta. intros p t (ls & _ & A & B). exists ls. split; [exact A|exact B].
Qed.

Lemma along_keys : forall (V A : Type) (R : ascii -> V -> A -> Prop) (d : list (ascii * V)),
  (forall p v, In (p, v) d -> exists a, R p v a) -> exists l, Forall2 (fun a pl => R (fst pl) (snd pl) a) l d.
Proof.
  intros V A R. induction d as [|[p v] d IH]; intro H; [exists []; constructor|].
  destruct (H p v (or_introl eq_refl)) as (a & Q). destruct IH as (l & F); [intros q w I; apply H; now right|]. exists (a :: l). now constructor.
Qed.
Lemma flipped_keys : forall (V A : Type) (R : ascii -> V -> A -> Prop) l (d : list (ascii * V)),
  Forall2 (fun a pl => R (fst pl) (snd pl) a) l d -> Forall2 (fun p a => exists v, R p v a) (dkeys d) l.
Proof. intros V A R l d F. induction F as [|a [p v] l d H _ IH]; cbn [dkeys map fst]; constructor; [eauto|exact IH]. Qed.

Lemma author_field_named : forall fld, fld <> [] -> written_authors fld ->
  exists a, X4AuthorField e fld = Ok a /\ authors_named fld (a_authors a) /\ (~ author_missing fld -> a_authors a <> []).
Proof.
  intros fld N W. destruct (authors_total c e D fld N W) as (a & E).
  destruct (plain_field_total fld N) as (f & P). pose proof (plain_pointers _ _ P) as Q. rewrite Forall_forall in Q.
  exists a. split; [exact E|].
  assert (MISS : author_missing fld -> a_authors a = []).
  { intro M. destruct (no_authors e fld M) as (a' & E' & A & _). now assert (a' = a) as <- by congruence. }
  assert (NAMED : ~ author_missing fld -> (exists nss,
     Forall2 (fun p names => exists ls parts, pointer_lines fld p ls /\ Forall2 trimmed ls parts /\ author_list names (concat parts))
             (appearing (marks " " fld)) nss /\ a_authors a = map title (concat nss)) /\ a_authors a <> []).
  { intro M. destruct W as [W|W]; [contradiction|].
    destruct (along_keys _ _ (fun p ls names => pointer_lines fld p ls /\ author_list names (concat (map strip ls))) (f_dict f)) as (nss & F).
    { intros p ls I. destruct (texts_exist ls) as (parts & T & Z). destruct (W p ls _ (Q _ I) T) as (ns & X). exists ns. split; [exact (Q _ I)|]. now rewrite <- Z. }
    destruct (author_field c e fld f nss (well_grammars _ _ D) P M) as (a' & E' & _ & A & _).
    { eapply Forall2_imp; [|exact F]. cbn beta. intros x pl (_ & H). exact H. }
    assert (a' = a) by congruence. subst a'. split.
    - exists nss. split; [|exact A]. pose proof (plain_order _ _ P) as O. change sp with " "%char in O. rewrite <- O.
      pose proof (flipped_keys _ _ (fun p ls names => pointer_lines fld p ls /\ author_list names (concat (map strip ls))) _ _ F) as K.
      eapply Forall2_imp; [|exact K]. cbn beta. intros p ns (ls & A1 & A2). destruct (texts_exist ls) as (parts & T & Z). exists ls, parts. split; [exact A1|]. split; [exact T|]. now rewrite Z.
    - rewrite A. intro Z. destruct (plain_first _ _ P) as (p & ps & ls & d & _ & Y). rewrite Y in F. inversion F as [|ns ? nss' ? (_ & H) _]; subst.
      cbn [concat] in Z. rewrite map_app in Z. apply app_eq_nil in Z. destruct Z as [Z _].
      assert (NN : ns <> []). { destruct H as [H|(_ & H)]; exact (proj1 H). } destruct ns; [contradiction|discriminate Z]. }
  split; [split; [exact MISS|]|]; intro M; now apply NAMED in M.
Qed.
Lemma author_field_shown : forall fld, fld <> [] -> written_authors fld ->
  exists a, X4AuthorField e fld = Ok a /\ authors_shown fld (author_str a).
Proof.
  intros fld N W. destruct (author_field_named fld N W) as (a & E & (M1 & M2) & NE). exists a. split; [exact E|]. split.
  - intro M. unfold author_str. now rewrite (M1 M).
  - intro M. destruct (M2 M) as (nss & F & A). exists nss. split; [exact F|]. rewrite <- A. pose proof (NE M) as NE'. unfold author_str.
    destruct (a_authors a) as [|x l]; [contradiction|now rewrite between_join].
Qed.

Lemma institute_field_shown : forall fld, fld <> [] -> written_institutes fld ->
  exists f l, X4InstituteField e fld = Ok (f, l) /\ institutes_shown e fld (Field.institutes_str l).
Proof.
  intros fld N W. destruct (plain_field_total fld N) as (f & P). pose proof (plain_pointers _ _ P) as Q. rewrite Forall_forall in Q.
  set (R := fun (p : ascii) ls is => pointer_lines fld p ls /\ is <> [] /\ institutes_text is (subfield_str ls) /\ no_tabs (subfield_str ls)).
  destruct (along_keys _ _ R (f_dict f)) as (iss & F).
  { intros p ls I. destruct (W p ls _ (Q _ I) (subfield_text ls)) as (is & X). exists is. split; [exact (Q _ I)|exact X]. }
  destruct (institute_field c e fld f iss (well_grammars _ _ D) P (well_institutes _ _ D)) as (rs & E & I).
  { eapply Forall2_imp; [|exact F]. cbn beta. intros x pl (_ & H). exact H. }
  exists f, rs. split; [exact E|]. exists iss, rs. split; [|split; [exact I|]].
  - pose proof (plain_order _ _ P) as O. change sp with " "%char in O. rewrite <- O.
    pose proof (flipped_keys _ _ R _ _ F) as K. eapply Forall2_imp; [|exact K]. cbn beta. intros p is (ls & A1 & _ & A2 & _).
    exists ls, (subfield_str ls). split; [exact A1|]. split; [apply subfield_text|exact A2].
  - unfold Field.institutes_str. rewrite between_join. reflexivity.
Qed.

Lemma reference_is_shown : forall r x, ref_read (e_dicts e) r x -> reference_shown e r (ref_str (fst x)).
Proof.
  intros r x (_ & _ & Dt & _ & Y & Pn & _). exists (rf_pretty (fst x)), (map strip (rt_details r)), (rf_pubyear (fst x)).
  split; [exact Pn|]. split; [clear; induction (rt_details r); cbn [map]; constructor; auto using strip_trimmed|]. split; [exact Y|].
  unfold ref_str. rewrite Dt, between_join. reflexivity.
Qed.
Lemma reference_field_shown : forall fld, fld <> [] -> written_references fld ->
  exists f x r, X4ReferenceField e fld = Ok (f, x) /\ references_shown e fld (reference_str x) /\
    first_reference fld r /\ parseX4Year (digits_text (rt_date r)) = Ok (ref_pubyear x) /\ ref_date x = digits_text (rt_date r).
Proof.
  intros fld N (NL & W & W0). destruct (plain_field_total fld N) as (f & P). pose proof (plain_pointers _ _ P) as Q.
  pose proof (plain_order _ _ P) as O. change sp with " "%char in O.
  destruct (plain_first _ _ P) as (p & ps & ls & d & M & E). rewrite E in Q. inversion Q as [|? ? Q0 Q1]; subst. cbn [fst snd] in Q0.
  assert (C : forall p ls, pointer_lines fld p ls -> Forall (fun l => ~ In nl l) ls).
  { clear - NL. intros p ls (texts & T & -> & _). 
    assert (X : Forall (fun l => ~ In nl l) texts).
    { revert texts T. induction NL as [|l fld H _ IH]; intros texts T; inversion T as [|? y ? ys T0 T1]; subst; constructor; [|now apply IH].
      destruct T0 as (b & E & _). intro I. apply H. change (ascii_of_N 10) with nl.
      assert (J : In nl (columns 11 66 l)) by (rewrite E; apply in_or_app; now left).
      unfold columns in J. apply firstn_In in J. now apply skipn_In in J. }
    revert X. generalize (marks " " fld). clear. intros ms X. revert ms. induction X as [|x xs H _ IH]; intros [|m ms]; cbn [marked]; try constructor.
    destruct (Ascii.eqb p m); [constructor; [exact H|apply IH]|apply IH]. }
  destruct (W0 p ps ls M Q0) as (r & rs & (RL & RT) & R0).
  set (R := fun (p : ascii) ls rs => pointer_lines fld p ls /\ pointer_refs rs ls /\ Forall (fun r => In (rt_type r) (publication_types ++ numbered_types)) rs).
  destruct (along_keys _ _ R d) as (rss & F).
  { intros q ks I. rewrite Forall_forall in Q1. pose proof (Q1 _ I) as J. cbn [fst snd] in J. destruct (W q ks J) as (rs' & A & B). exists rs'. split; [exact J|]. split; [exact A|exact B]. }
  assert (FF : Forall2 (fun a pl => R (fst pl) (snd pl) a) ((r :: rs) :: rss) (f_dict f)).
  { rewrite E. constructor; [|exact F]. cbn [fst snd]. repeat split; auto. }
  destruct (reference_field c e fld f ((r :: rs) :: rss) r rs rss (well_grammars _ _ D) (well_rows _ _ D) P) as (x & x0 & X & RR & KR & R1 & _ & _ & _ & DT & PY & _); auto.
  { eapply Forall2_imp; [|exact FF]. cbn beta. intros a pl (A1 & A2 & _). split; [exact A2|now apply (C (fst pl))]. }
  { clear - FF. induction FF as [|a pl l d (_ & _ & H) _ IH]; constructor; [exact H|exact IH]. }
  exists f, x, r. split; [exact X|]. split.
  2:{ destruct R1 as (_ & _ & _ & R1 & R2 & _). split; [exists p, ps, ls, rs; split; [exact M|]; split; [exact Q0|split; assumption]|]. rewrite DT, PY. split; [exact R2|exact R1]. }
  set (lists := (r :: rs) :: rss) in *.
  exists (map (fun pl => (if Ascii.eqb (fst pl) sp then [] else lit "[" ++ [fst pl] ++ lit "]") ++ join (lit "; ") (map (fun x => ref_str (fst x)) (snd pl))) (ref_refs x)).
  split; [|unfold reference_str; apply between_join].
  unfold per_pointer. rewrite <- O. clear - FF RR KR. revert KR. generalize (ref_refs x) RR. clear RR x. induction FF as [|a [q ks] l d (A1 & A2 & A3) _ IH]; intros refs RR KR.
  - inversion RR; subst. constructor.
  - inversion RR as [|? px ? refs' H RR']; subst. cbn [map fst snd] in *. unfold dkeys. cbn [map fst]. constructor.
    + exists ks. split; [exact A1|]. exists a, (map (fun x => ref_str (fst x)) (snd px)). split; [split; assumption|]. split.
      * clear - H. induction H as [|r y rs ys H _ IH]; cbn [map]; constructor; [now apply reference_is_shown|exact IH].
      * assert (fst px = q) as -> by congruence. rewrite between_join. reflexivity.
    + apply IH; [exact RR'|congruence].
Qed.
End Fields.

Lemma field_is_shown : forall c e, well_dictionaries c e -> forall nm, naming c e nm -> forall kw fld, field_keyword kw fld -> well_field c fld ->
  exists f t, make_field e (key_of kw) fld = Ok f /\ field_str nm f = Ok t /\ field_shown e nm kw fld t.
Proof.
  intros c e D nm NM kw fld K W. assert (N : fld <> []) by (destruct K as (l & ls & -> & _); discriminate).
  assert (PLAIN : exists f, X4PlainField fld = Ok f /\ plain_shown fld (plain_str f)).
  { destruct (plain_field_total fld N) as (f & P). exists f. split; [exact P|now apply plain_field_shown]. }
  destruct kw as [|k0 kw0].
  { destruct PLAIN as (f & P & S). unfold make_field. cbn [key_of tag_eqb]. rewrite P. cbn [bind]. exists (FPlain f), (plain_str f). split; [reflexivity|]. split; [reflexivity|].
    constructor; try (intro H; discriminate H). intros _. exact S. }
  change (key_of (k0 :: kw0)) with (Some (k0 :: kw0)). remember (k0 :: kw0) as kw eqn:Ek. clear Ek k0 kw0.
  assert (SW : forall s, str_eqb kw (lit s) = true -> field_keyword (tx s) fld /\ kw = tx s).
  { intros s B. apply str_eqb_eq in B. subst kw. split; [exact K|reflexivity]. }
  assert (ONE : forall s t, kw = tx s -> In s ["REACTION"; "MONITOR"; "REFERENCE"; "AUTHOR"; "TITLE"; "INSTITUTE"] ->
    (s = "REACTION" -> reactions_shown e nm fld t) -> (s = "MONITOR" -> monitors_shown e nm fld t) -> (s = "REFERENCE" -> references_shown e fld t) ->
    (s = "AUTHOR" -> authors_shown fld t) -> (s = "TITLE" -> title_shown fld t) -> (s = "INSTITUTE" -> institutes_shown e fld t) -> field_shown e nm kw fld t).
  { intros s t -> I H1 H2 H3 H4 H5 H6.
    assert (INJ : forall u, tx s = tx u -> s = u).
    { intros u E. rewrite <- (string_of_list_ascii_of_string s), <- (string_of_list_ascii_of_string u). unfold tx in E. now rewrite E. }
    constructor; try (intro E; apply INJ in E; auto; fail). intro NI. exfalso. apply NI. unfold formatted. now apply in_map. }
  unfold make_field. cbn [tag_eqb].
  destruct (str_eqb kw (lit "REACTION")) eqn:B1.
  { destruct (SW _ B1) as (F & E). destruct (reaction_field_shown c e D nm NM fld N (well_reaction _ _ W F)) as (f & rs & t & -> & S & H). cbn [bind].
    eexists _, t. split; [reflexivity|]. split; [exact S|]. apply (ONE _ _ E); try discriminate; cbn [In]; auto. }
  destruct (str_eqb kw (lit "MONITOR")) eqn:B2.
  { destruct (SW _ B2) as (F & E). destruct (monitor_field_shown c e D nm NM fld N (well_monitor _ _ W F)) as (f & rs & t & -> & S & H). cbn [bind].
    eexists _, t. split; [reflexivity|]. split; [exact S|]. apply (ONE _ _ E); try discriminate; cbn [In]; auto. }
  destruct (str_eqb kw (lit "REFERENCE")) eqn:B3.
  { destruct (SW _ B3) as (F & E). destruct (reference_field_shown c e D fld N (well_reference _ _ W F)) as (f & x & r & -> & H & _). cbn [bind].
    eexists _, _. split; [reflexivity|]. split; [reflexivity|]. apply (ONE _ _ E); try discriminate; cbn [In]; auto. }
  destruct (str_eqb kw (lit "AUTHOR")) eqn:B4.
  { destruct (SW _ B4) as (F & E). destruct (author_field_shown c e D fld N (well_author _ _ W F)) as (a & -> & H). cbn [bind].
    eexists _, _. split; [reflexivity|]. split; [reflexivity|]. apply (ONE _ _ E); try discriminate; cbn [In]; auto 6. }
  destruct (str_eqb kw (lit "TITLE")) eqn:B5.
  { destruct (SW _ B5) as (F & E). destruct (plain_field_total fld N) as (f & P). rewrite P. cbn [bind].
    eexists _, _. split; [reflexivity|]. split; [reflexivity|]. apply (ONE _ _ E); try discriminate; cbn [In]; auto 7. intros _. now apply title_field_shown. }
  destruct (str_eqb kw (lit "INSTITUTE")) eqn:B6.
  { destruct (SW _ B6) as (F & E). destruct (institute_field_shown c e D fld N (well_institute _ _ W F)) as (f & l & -> & H). cbn [bind].
    eexists _, _. split; [reflexivity|]. split; [reflexivity|]. apply (ONE _ _ E); try discriminate; cbn [In]; auto 8. }
  destruct PLAIN as (f & P & S). rewrite P. cbn [bind]. eexists _, _. split; [reflexivity|]. split; [reflexivity|].
  assert (NO : forall s, str_eqb kw (lit s) = false -> kw <> tx s). { intros s B ->. unfold tx, lit in B. now rewrite str_eqb_refl in B. }
  constructor; try (intro E; exfalso; revert E; apply NO; assumption). intros _. exact S.
Qed.

(** ** Sections *)

Definition filled_bib (b : bib) : Prop := NoDup (dkeys (b_dict b)) /\ forall k x, In (k, x) (b_dict b) -> exists f, x = Some f.
Lemma bib_filled : forall e lines b, X4BibSection e lines = Ok b -> filled_bib b.
Proof.
  intros e lines b H. rewrite bib_section_fold in H. refine (fold_res_inv _ _ filled_bib _ _ _ _ _ _ H); [|split; [constructor|intros k x []]].
  clear H. intros s x s' (ND & A) H. apply bib_add_ok in H. destruct H as (kw & f & _ & _ & ->). split; cbn [b_dict].
  - now apply (NoDup_dset _ tag_eqb_eq).
  - intros k y I. apply (In_dset _ _ _ tag_eqb_eq) in I. destruct I as [[-> ->]|I]; [eauto|exact (A _ _ I)].
Qed.
Lemma total_len : forall b, filled_bib b -> exists n, bib_totalLen b = Ok n.
Proof.
  intros b (_ & A). unfold bib_totalLen.
  destruct (PrintableLemmas.map_res_total _ _ (fun f => match f with Some f => Ok (field_total_len f) | None => Raise AttributeError end) (dvals (b_dict b))) as (l & ->).
  - apply Forall_forall. intros x I. unfold dvals in I. apply in_map_iff in I. destruct I as ([k y] & <- & I). destruct (A _ _ I) as (f & E). cbn [snd]. rewrite E. eauto.
  - cbn [bind]. eauto.
Qed.
Lemma total_lines : forall e lines b kws, X4BibSection e lines = Ok b -> Forall2 field_keyword kws (bib_chunkify lines) -> NoDup kws ->
  (forall fld, In fld (bib_chunkify lines) -> field_keyword (lit "AUTHOR") fld -> ~ author_missing fld) ->
  bib_totalLen b = Ok (length (concat (bib_chunkify lines))).
Proof.
  intros e lines b kws H F2 ND NA. rewrite bib_section_fold in H. revert F2 NA H. generalize (bib_chunkify lines) as flds. intros flds F2 NA H.
  destruct (fold_bib_distinct e kws _ F2 ND _ _ H) as (fs & FM & DB & _); [intros kw _ []|]. cbn [b_dict app] in DB. clear H.
  unfold bib_totalLen. rewrite DB. clear DB b.
  assert (X : map_res (fun f => match f with Some f => Ok (field_total_len f) | None => Raise AttributeError end)
                (dvals (combine (map key_of kws) (map Some fs))) = Ok (map (@length str) flds)).
  { revert fs FM NA. induction F2 as [|kw fld kws flds K F2 IH]; intros fs FM NA.
    - inversion FM. reflexivity.
    - cbn [combine] in FM. inversion FM as [|? f ? fs' M FM']; subst. cbn [fst snd] in M. inversion ND as [|? ? N1 N2]; subst.
      cbn [map combine dvals snd map_res]. unfold dvals in IH. rewrite (IH N2 fs' FM') by (intros x I; apply NA; now right).
      cbn [bind]. f_equal. f_equal. unfold field_total_len.
      destruct (make_field_plain _ _ _ _ M) as [P|(A & NO & _)].
      + now apply plain_field_spec in P.
      + exfalso. apply (NA fld (or_introl eq_refl)); [|now apply no_author_missing].
        apply key_of_inj with (b := lit "AUTHOR") in A. now subst. }
  rewrite X. cbn [bind]. f_equal. clear. induction flds as [|f fs IH]; [reflexivity|]. cbn [map concat]. rewrite app_length, <- IH. reflexivity.
Qed.
Lemma in_columns_of : forall n, in_columns n (rjust 11 (nat_to_str n)).
Proof.
  intro n. split; [apply writes_nat|]. destruct (N.lt_ge_cases (N.of_nat n) (10 ^ 11)%N) as [L|L]; [left|now right].
  apply rjust_exact. exact (n_to_str_length 11 (N.of_nat n) ltac:(lia) L).
Qed.
Lemma same_count : forall (A B : Type) (f : A -> B) (l : list A) (m : list B), (forall a b, f a = f b -> a = b) -> NoDup l -> NoDup m ->
  (forall y, In y m <-> exists x, In x l /\ y = f x) -> length m = length l.
Proof.
  intros A B f l m I NL NM E. apply Nat.le_antisymm.
  - rewrite <- (map_length f l). apply NoDup_incl_length; [exact NM|]. intros y H. apply E in H. destruct H as (x & H & ->). now apply in_map.
  - rewrite <- (map_length f l). apply NoDup_incl_length.
    + clear - I NL. induction NL as [|x l H _ IH]; cbn [map]; constructor; [|exact IH]. intro J. apply in_map_iff in J. destruct J as (z & E & J). apply I in E. now subst.
    + intros y H. apply in_map_iff in H. destruct H as (x & <- & H). apply E. eauto.
Qed.

Lemma bib_is_shown : forall c e, well_dictionaries c e -> forall nm, naming c e nm -> forall section b, well_bib c section -> X4BibSection e section = Ok b ->
  exists t, bib_str nm b = Ok t /\ bib_shown e nm section t.
Proof.
  intros c e D nm NM section b (fs & F & W) H.
  assert (CH : bib_chunkify section = fs) by (destruct F as (first & rest & -> & O & K & M); now apply bib_chunkify_fields).
  pose proof (bib_filled _ _ _ H) as FB. destruct (total_len _ FB) as (n & T).
  assert (H' := H). rewrite bib_section_fold, CH in H'. destruct (fold_bib_spec _ _ _ _ H') as ((kws & F2 & KS) & _ & LK & IK). cbn [b_keys app] in KS.
  assert (EACH : exists ts, map_res (fun k => f <- of_option KeyError (dget tag_eqb k (b_dict b)) ;;
                          match f with Some f => field_str nm f | None => Ok (lit "None") end) (map key_of kws) = Ok ts /\
                 Forall2 (fun kw t => exists fld, last_such (field_keyword kw) fs fld /\ field_shown e nm kw fld t) kws ts).
  { assert (ALL : forall kw, In kw kws -> exists fld, In fld fs /\ field_keyword kw fld).
    { clear - F2. induction F2 as [|k fld kws fs K _ IH]; intros kw I; [destruct I|]. destruct I as [<-|I]; [exists fld; split; [now left|exact K]|].
      destruct (IH kw I) as (x & J & Q). exists x. split; [now right|exact Q]. }
    clear KS F2. induction kws as [|kw kws IH]; [exists []; split; [reflexivity|constructor]|].
    destruct IH as (ts & E & G); [intros k I; apply ALL; now right|]. destruct (ALL kw (or_introl eq_refl)) as (fld0 & I0 & K0).
    destruct (dget tag_eqb (key_of kw) (b_dict b)) as [x|] eqn:GE.
    2:{ exfalso. apply (dget_None _ tag_eqb_eq) in GE. apply GE, IK. right. eauto. }
    assert (LX := GE). apply LK in LX. destruct LX as [(fld & f & LA & MF & ->)|[_ X]]; [|discriminate X].
    destruct (last_in _ _ _ _ LA) as (I1 & K1). rewrite Forall_forall in W.
    destruct (field_is_shown c e D nm NM kw fld K1 (W _ I1)) as (f' & t & M' & S & SH). assert (f' = f) by congruence. subst f'.
    exists (t :: ts). cbn [map map_res]. rewrite GE. cbn [of_option bind]. rewrite S. cbn [bind]. rewrite E. split; [reflexivity|]. constructor; [|exact G]. eauto. }
  destruct EACH as (ts & E & G). eexists. split.
  - unfold bib_str. rewrite T, KS, E. cbn [bind]. reflexivity.
  - exists fs, kws, ts, (length (b_dict b)), n, (rjust 11 (nat_to_str (length (b_dict b)))), (rjust 11 (nat_to_str n)).
    split; [exact F|]. split; [exact F2|]. split; [exact G|]. split; [apply in_columns_of|]. split; [apply in_columns_of|]. split; [|split; [|reflexivity]].
    + rewrite <- (map_length fst (b_dict b)). apply (same_count _ _ key_of); [exact key_of_inj|apply NoDup_nodup|exact (proj1 FB)|].
      intro y. change (map fst (b_dict b)) with (dkeys (b_dict b)). rewrite IK. split.
      * intros [[]|(kw & fld & -> & I & K)]. exists kw. split; [|reflexivity]. apply nodup_In. clear - F2 I K.
        induction F2 as [|k f kws fs Q _ IH]; [destruct I|]. destruct I as [->|I]; [left; exact (field_keyword_fun _ _ _ Q K)|right; auto].
      * intros (kw & I & ->). apply nodup_In in I. right. exists kw. clear - F2 I.
        induction F2 as [|k f kws fs Q _ IH]; [destruct I|]. destruct I as [->|I]; [exists f; repeat split; auto; now left|].
        destruct (IH I) as (x & _ & J & L). exists x. repeat split; auto. now right.
    + intros ND NA. rewrite <- CH in F2, NA |- *. pose proof (total_lines e section b kws H F2 ND NA) as TL. congruence.
Qed.

(** ** Subentries *)

Lemma keyword_dec : forall kw (b : list (list ascii)), field_keyword kw b \/ ~ field_keyword kw b.
Proof.
  intros kw [|l ls]; [right; intros (x & xs & E & _); discriminate E|]. destruct (str_eqb (strip (columns 0 10 l)) kw) eqn:B.
  - left. exists l, ls. split; [reflexivity|]. apply strip_iff. now apply str_eqb_eq.
  - right. intros (x & xs & E & K). injection E as <- <-. apply strip_iff in K. rewrite K, str_eqb_refl in B. discriminate B.
Qed.
Lemma last_or_none : forall (A : Type) (P : A -> Prop) l, (forall x, P x \/ ~ P x) -> Forall (fun x => ~ P x) l \/ exists x, last_such P l x.
Proof.
  intros A P l DEC. induction l as [|y l IH]; [left; constructor|]. destruct IH as [IH|(x & a & b & -> & H & F)].
  - destruct (DEC y) as [H|H]; [right; exists y, [], l; auto|left; now constructor].
  - right. exists x, (y :: a), b. auto.
Qed.

(** The sections of a subentry, in order. *)
Lemma subentry_sections : forall c e, forall num text s, well_subentry c text -> numbered num text -> X4SubEntry e text = Ok s ->
  exists has, s_accnum s = Some num /\ subentry_sorted_keys s = map tx (filter has ["BIB"; "COMMON"; "DATA"]) /\
    (forall name, In name ["BIB"; "COMMON"; "DATA"] -> (has name = true <-> exists b, has_section name text b)) /\
    forall name, In name (filter has ["BIB"; "COMMON"; "DATA"]) -> exists b x, has_section name text b /\ dget str_eqb (tx name) (s_dict s) = Some x /\
      (name = "BIB" -> well_bib c b /\ exists bb, x = SBib bb /\ X4BibSection e b = Ok bb) /\
      (name <> "BIB" -> exists d, x = SData d /\ X4DataSection (tx name) b = Ok d).
Proof.
  intros c e num text s W NU E. pose proof (well_named c _ W) as SN.
  assert (A : s_accnum s = Some num) by (now apply (numbered_accnum e text s num E)).
  assert (FN := sub_fold e text s E). apply fold_names in FN; [|intros k []|constructor]. destruct FN as [KN KD].
  assert (SEC : forall name, In name ["BIB"; "COMMON"; "DATA"] -> section_name name).
  { intros name I. unfold section_name. cbn [In] in *. intuition. }
  assert (HAS : forall name, In name ["BIB"; "COMMON"; "DATA"] -> (smem (tx name) (dkeys (s_dict s)) = true <-> exists b, has_section name text b)).
  { intros name I. rewrite smem_In. split.
    - intro J. destruct W as (_ & lines & bs & L & S & WS). destruct (last_or_none _ (field_keyword (tx name)) bs (keyword_dec (tx name))) as [NO|(b & LA)].
      + exfalso. assert (X : sub_section s name = None) by (apply (sub_none e text s name E SN); exists lines, bs; auto).
        unfold sub_section in X. apply (dget_None _ str_eqb_eq) in X. contradiction.
      + exists b, lines, bs. auto.
    - intros (b & HB). destruct (sub_has e text s name b E SN (SEC _ I) HB) as (x & _ & X). unfold sub_section in X. apply (dget_Some_keys _ str_eqb_eq). eauto. }
  exists (fun name => smem (tx name) (dkeys (s_dict s))). split; [exact A|]. split; [|split; [exact HAS|]].
  - unfold subentry_sorted_keys. rewrite (sorted_names _ KD KN). cbn [filter map].
    destruct (smem (tx "BIB") (dkeys (s_dict s))), (smem (tx "COMMON") (dkeys (s_dict s))), (smem (tx "DATA") (dkeys (s_dict s))); reflexivity.
  - intros name J. apply filter_In in J. destruct J as (I & J). apply HAS in J; [|exact I]. destruct J as (b & HB).
    destruct (sub_has e text s name b E SN (SEC _ I) HB) as (x & M & X). exists b, x. split; [exact HB|]. unfold sub_section in X. split; [exact X|]. split; [intros ->|intro NB].
    + destruct (sub_bib e text s b E SN HB) as (bb & EB & BO). split.
      * destruct W as (_ & lines & bs & L & S & WS). destruct HB as (lines' & bs' & L' & S' & LA).
        assert (bs' = bs). { apply lines_split in L, L'. apply sections_chunkify in S, S'. congruence. }
        subst bs'. destruct (last_in _ _ _ _ LA) as (Ib & Kb). rewrite Forall_forall in WS. destruct (WS _ Ib) as [(_ & Q)|([Q|Q] & _)]; [exact Q| |];
          exfalso; pose proof (field_keyword_fun _ _ _ Kb Q) as Z; discriminate Z.
      * exists bb. split; [|exact EB]. unfold bib_of in BO. change (lit "BIB") with (list_ascii_of_string "BIB") in X. rewrite X in BO. destruct x; congruence.
    + assert (DC : name = "DATA" \/ name = "COMMON") by (cbn [In] in I; intuition congruence).
      destruct (sub_table e text s name b E SN DC HB) as (d & EX & SX). exists d. split; [|exact EX].
      unfold sub_data, sub_section in SX. rewrite X in SX. destruct x; congruence.
Qed.

Lemma subentry_is_shown : forall c e, well_dictionaries c e -> forall nm, naming c e nm -> forall num text s, well_subentry c text -> numbered num text ->
  X4SubEntry e text = Ok s -> exists t, subentry_str nm s = Ok t /\ subentry_shown e nm num text t.
Proof.
  intros c e D nm NM num text s W NU E. destruct (subentry_sections c e num text s W NU E) as (has & A & SK & HAS & EACH).
  assert (ALL : exists ts, map_res (fun k => x <- of_option KeyError (dget str_eqb k (s_dict s)) ;; section_str nm x) (map tx (filter has ["BIB"; "COMMON"; "DATA"])) = Ok ts /\
                 Forall2 (fun name t => exists b, has_section name text b /\ section_shown e nm name b t) (filter has ["BIB"; "COMMON"; "DATA"]) ts).
  { clear SK HAS. revert EACH. generalize (filter has ["BIB"; "COMMON"; "DATA"]). induction l as [|name l IH]; intro EACH; [exists []; split; [reflexivity|constructor]|].
    destruct IH as (ts & Q & R); [intros x I; apply EACH; now right|]. destruct (EACH name (or_introl eq_refl)) as (b & x & HB & X & B1 & B2).
    assert (T : exists t, section_str nm x = Ok t /\ section_shown e nm name b t).
    { destruct (string_dec name "BIB") as [->|NB].
      - destruct (B1 eq_refl) as (WB & bb & -> & EB). destruct (bib_is_shown c e D nm NM b bb WB EB) as (t & S & SH). exists t. split; [exact S|].
        split; [intros _; exact SH|intro Z; now elim Z].
      - destruct (B2 NB) as (d & -> & ED). exists (data_str d). split; [reflexivity|]. split; [intro Z; contradiction|]. intros _. exists d. split; [exact ED|reflexivity]. }
    destruct T as (t & T & SH). exists (t :: ts). cbn [map map_res]. rewrite X. cbn [of_option bind]. rewrite T. cbn [bind]. rewrite Q. split; [reflexivity|].
    constructor; [|exact R]. eauto. }
  destruct ALL as (ts & M & F2). eexists. split.
  - unfold subentry_str. rewrite A, SK, M. cbn [of_option bind]. reflexivity.
  - exists has, ts. cbv zeta. split; [exact HAS|]. split; [exact F2|]. unfold padded, stacked, ljust. rewrite <- ?app_assoc. reflexivity.
Qed.

(** ** Entries *)

(** The subentries of an entry, in order. *)
Lemma entry_sorted : forall c e acc raw n, well_entry c acc raw -> X4Entry e raw = Ok n ->
  exists nums, entry_sortedKeys n = Ok (map Some nums) /\ StronglySorted str_lt nums /\
    (forall num, In num nums <-> exists text, In text raw /\ numbered num text) /\
    (forall k, In k (dkeys (n_subs n)) -> exists num, k = Some num /\ In num nums) /\
    forall num, In num nums -> exists text s, last_such (numbered num) raw text /\ well_subentry c text /\ X4SubEntry e text = Ok s /\ dget tag_eqb (Some num) (n_subs n) = Some s.
Proof.
  intros c e acc raw n W E.
  pose proof (EntryLemmas.entry_ok _ _ _ E) as (_ & _ & FE). pose proof (entry_good _ _ _ E) as [ND _ _].
  assert (KEY : forall k, In k (dkeys (n_subs n)) -> exists num text s, k = Some num /\ last_such (numbered num) raw text /\ X4SubEntry e text = Ok s /\ dget tag_eqb k (n_subs n) = Some s).
  { intros k I. destruct (dget tag_eqb k (n_subs n)) as [s|] eqn:G; [|exfalso; apply (dget_None _ tag_eqb_eq) in G; contradiction].
    assert (G' := G). apply (fold_entry_spec _ _ _ _ FE) in G'. destruct G' as [(text & LA & S)|[_ X]]; [|discriminate X].
    destruct (last_in _ _ _ _ LA) as (IT & (s' & S' & AK)). assert (s' = s) by congruence. subst s'.
    destruct W as [_ WS _]. rewrite Forall_forall in WS. destruct (WS _ IT) as ((num & NU) & _).
    assert (AN : s_accnum s = Some num) by (now apply (numbered_accnum e text s num S)).
    exists num, text, s. split; [congruence|]. split; [|split; [exact S|reflexivity]].
    destruct LA as (pre & post & -> & _ & F). exists pre, post. split; [reflexivity|]. split; [exact NU|]. rewrite Forall_forall in F |- *.
    intros x Ix NX. apply (F x Ix). destruct (entry_all_parsed _ _ _ x E) as (sx & Sx); [apply in_or_app; right; now right|].
    exists sx. split; [exact Sx|]. rewrite (proj1 (numbered_accnum e x sx num Sx) NX). congruence. }
  assert (KS : exists nums, map_res (fun k => of_option TypeError k) (dkeys (n_subs n)) = Ok nums /\ dkeys (n_subs n) = map Some nums).
  { assert (X : forall k, In k (dkeys (n_subs n)) -> exists num, k = Some num) by (intros k I; destruct (KEY k I) as (num & _ & _ & -> & _); eauto).
    revert X. generalize (dkeys (n_subs n)). clear. induction l as [|k l IH]; intro X; [exists []; auto|].
    destruct IH as (nums & Q & R); [intros x I; apply X; now right|]. destruct (X k (or_introl eq_refl)) as (num & ->). exists (num :: nums).
    cbn [map_res of_option bind map]. rewrite Q, R. auto. }
  destruct KS as (nums & MR & KM).
  assert (SK : entry_sortedKeys n = Ok (map Some (ssort nums))).
  { unfold entry_sortedKeys. rewrite MR. cbn [bind]. rewrite KM. destruct nums as [|a [|b l]]; reflexivity. }
  assert (NDN : NoDup nums). { rewrite KM in ND. now apply NoDup_map_inv in ND. }
  assert (IN : forall num, In num nums <-> In (Some num) (dkeys (n_subs n))).
  { intro num. rewrite KM. split; [now apply in_map|]. intro I. apply in_map_iff in I. destruct I as (x & Q & I). congruence. }
  exists (ssort nums). split; [exact SK|]. split; [apply sorted_strict; [now apply ssort_NoDup|apply ssort_sorted]|]. split.
  - intro num. rewrite ssort_In, IN. split.
    + intro I. destruct (KEY _ I) as (num' & text & s & EN & LA & _). assert (num' = num) by congruence. subst num'. apply last_in in LA. eauto.
    + intros (text & IT & NU). destruct (entry_all_parsed _ _ _ text E IT) as (s & S). pose proof (proj1 (numbered_accnum e text s num S) NU) as AN.
      destruct (last_or_none _ (fun x => exists s, X4SubEntry e x = Ok s /\ s_accnum s = Some num) raw) as [NO|(x & LA)].
      * intro x. destruct (X4SubEntry e x) as [sx|err]; [|right; intros (? & Q & _); discriminate Q].
        destruct (tag_eqb (s_accnum sx) (Some num)) eqn:T; [left; exists sx; split; [reflexivity|now apply tag_eqb_eq]|].
        right. intros (s' & Q & Z). assert (s' = sx) by congruence. subst s'. rewrite Z in T. rewrite (proj2 (tag_eqb_eq _ _) eq_refl) in T. discriminate T.
      * exfalso. rewrite Forall_forall in NO. apply (NO text IT). eauto.
      * destruct (last_in _ _ _ _ LA) as (_ & sx & Sx & _). apply (dget_Some_keys _ tag_eqb_eq). exists sx. apply (fold_entry_spec _ _ _ _ FE). left. exists x. split; [exact LA|exact Sx].
  - split; [intros k I; rewrite KM in I; apply in_map_iff in I; destruct I as (num & <- & I); exists num; split; [reflexivity|now apply ssort_In]|].
    intros num I. rewrite ssort_In in I. destruct (KEY (Some num)) as (num' & text & s & EN & LA & S & G); [now apply IN|]. assert (num' = num) by congruence. subst num'.
    destruct (last_in _ _ _ _ LA) as (IT & NU). exists text, s. split; [exact LA|]. split; [destruct W as [_ WS _]; rewrite Forall_forall in WS; now apply WS|]. split; [exact S|exact G].
Qed.
Lemma getitem_number : forall n num s, length num = 8 -> dget tag_eqb (Some num) (n_subs n) = Some s -> entry_getitem n (EStr num) = Ok s.
Proof. intros n num s L G. unfold entry_getitem. cbn [key_text]. cbv zeta. rewrite L. change (8 =? 8) with true. cbv iota. rewrite G. reflexivity. Qed.

Lemma entry_is_shown : forall c e, well_dictionaries c e -> forall nm, naming c e nm -> forall acc raw, well_entry c acc raw ->
  (forall num text, In text raw -> numbered num text -> length num = 8) ->
  exists n t, X4Entry e raw = Ok n /\ entry_str nm n = Ok t /\ entry_shown e nm acc raw t.
Proof.
  intros c e D nm NM acc raw W L8. destruct (entry_total c e D acc raw W) as (n & s1 & b1 & E & A & _ & _ & _).
  exists n. destruct (entry_sorted c e acc raw n W E) as (nums & SK & SS & IN & _ & KEY).
  assert (ALL : exists ts, map_res (fun k => match k with Some k => s <- entry_getitem n (EStr k) ;; subentry_str nm s | None => Raise TypeError end) (map Some nums) = Ok ts /\
                 Forall2 (fun num t => exists text, last_such (numbered num) raw text /\ subentry_shown e nm num text t) nums ts).
  { clear SK SS IN. induction nums as [|num l IH]; [exists []; split; [reflexivity|constructor]|].
    destruct IH as (ts & Q & R); [intros x I; apply KEY; now right|].
    destruct (KEY num (or_introl eq_refl)) as (text & s & LA & WT & S & G). destruct (last_in _ _ _ _ LA) as (IT & NU).
    destruct (subentry_is_shown c e D nm NM num text s WT NU S) as (t & T & SH).
    apply (getitem_number _ _ _ (L8 num text IT NU)) in G.
    exists (t :: ts). cbn [map map_res]. rewrite G. cbn [bind]. rewrite T. cbn [bind]. rewrite Q. split; [reflexivity|]. constructor; [|exact R]. eauto. }
  destruct ALL as (ts & M & F2). eexists. split; [exact E|]. split.
  - unfold entry_str. rewrite SK. cbn [bind]. rewrite M. cbn [bind]. reflexivity.
  - exists nums, ts. split; [exact SS|]. split; [exact IN|]. split; [exact F2|]. rewrite A. unfold padded, stacked, ljust. rewrite <- ?app_assoc. reflexivity.
Qed.

(** ** repr() *)

(** Some call raises, none raises anything else. *)
Definition at_most {A} (P : Prop) (r : res A) : Prop := (P /\ r = Raise AttributeError) \/ (~ P /\ exists x, r = Ok x).
Lemma map_at_most : forall (A B : Type) (f : A -> res B) (P : A -> Prop) l, (forall x, In x l -> at_most (P x) (f x)) ->
  at_most (exists x, In x l /\ P x) (map_res f l).
Proof.
  intros A B f P. induction l as [|x l IH]; intro H; [right; split; [intros (x & [] & _)|exists []; reflexivity]|].
  cbn [map_res]. destruct (H x (or_introl eq_refl)) as [(Q & ->)|(Q & y & ->)]; [left; split; [exists x; split; [now left|exact Q]|reflexivity]|]. cbn [bind].
  destruct IH as [((z & I & R) & ->)|(R & ys & ->)]; [intros z I; apply H; now right|left; split; [exists z; split; [now right|exact R]|reflexivity]|].
  right. split; [intros (z & [<-|I] & Z); [contradiction|apply R; eauto]|]. cbn [bind]. eauto.
Qed.
Lemma at_most_then : forall (A B : Type) (P Q : Prop) (r : res A) (g : A -> B), at_most P r -> (P <-> Q) -> at_most Q (x <- r ;; Ok (g x)).
Proof.
  intros A B P Q r g [(H & ->)|(H & x & ->)] I; cbn [bind]; [left; split; [now apply I|reflexivity]|right; split; [intro Z; apply H; now apply I|eauto]].
Qed.
Lemma at_most_iff : forall (A : Type) (P Q : Prop) (r : res A), at_most P r -> (P <-> Q) -> at_most Q r.
Proof. intros A P Q r [(H & E)|(H & E)] I; [left|right]; (split; [|exact E]); [now apply I|intro; apply H; now apply I]. Qed.

Lemma last_fun : forall (A : Type) (P : A -> Prop) l x y, last_such P l x -> last_such P l y -> x = y.
Proof.
  intros A P l x y (a & b & E & H & F) (a' & b' & E' & H' & F'). subst l. revert a' E'. induction a as [|z a IH]; intros [|z' a'] E'; cbn [app] in E'; injection E' as E1 E2.
  - exact E1.
  - exfalso. subst b. rewrite Forall_app in F. destruct F as (_ & F). inversion F. contradiction.
  - exfalso. subst b'. rewrite Forall_app in F'. destruct F' as (_ & F'). inversion F'. contradiction.
  - now apply (IH a').
Qed.
Lemma has_section_fun : forall name text a b, has_section name text a -> has_section name text b -> a = b.
Proof.
  intros name text a b (lines & bs & L & S & LA) (lines' & bs' & L' & S' & LA'). apply lines_split in L, L'. apply sections_chunkify in S, S'.
  assert (Q : bs' = bs) by congruence. rewrite Q in LA'. exact (last_fun _ _ _ _ _ LA LA').
Qed.

Lemma field_at_most : forall e kw fld f, make_field e (key_of kw) fld = Ok f -> at_most (kw = tx "AUTHOR" /\ author_missing fld) (field_repr f).
Proof.
  intros e kw fld f M. unfold field_repr. destruct (make_field_plain _ _ _ _ M) as [P|(A & NO & ->)].
  - apply plain_field_spec in P. destruct P as ((_ & _ & tag & _ & T & _) & _). right. split.
    + intros (-> & MI). assert (F : make_field e (Some (lit "AUTHOR")) fld = a <- X4AuthorField e fld ;; Ok (FAuthor a)) by reflexivity.
      change (key_of (tx "AUTHOR")) with (Some (lit "AUTHOR")) in M. rewrite M in F. destruct MI as (l & I & MI). unfold X4AuthorField in F. cbv zeta in F.
      assert (Q : contains (lit "No author given") (join [nl] fld) || contains (lit ".NOT GIVEN.") (join [nl] fld) = true)
        by (apply orb_true_iff; destruct MI as [MI|MI]; [left|right]; exact (contains_join _ _ _ I MI)).
      rewrite Q in F. cbn [bind] in F. assert (f = FAuthor (mkAuthor (mkPlain None []) [] [])) by congruence. subst f. discriminate T.
    + unfold plain_repr. rewrite T. cbn [of_option bind]. eauto.
  - left. split; [|reflexivity]. split; [apply key_of_inj; exact A|now apply no_author_missing].
Qed.

Lemma bib_at_most : forall c e section b, well_bib c section -> X4BibSection e section = Ok b ->
  at_most (exists fs fld, fields section fs /\ last_such (field_keyword (tx "AUTHOR")) fs fld /\ author_missing fld) (bib_repr b).
Proof.
  intros c e section b (fs & F & W) H.
  assert (CH : forall fs, fields section fs -> bib_chunkify section = fs) by (intros x (first & rest & -> & O & K & M); now apply bib_chunkify_fields).
  pose proof (bib_filled _ _ _ H) as FB. destruct (total_len _ FB) as (n & T).
  assert (H' := H). rewrite bib_section_fold, (CH _ F) in H'. destruct (fold_bib_spec _ _ _ _ H') as ((kws & F2 & KS) & _ & LK & IK). cbn [b_keys app] in KS.
  assert (GET : forall fld kw, In fld fs -> field_keyword kw fld -> exists x f, last_such (field_keyword kw) fs x /\ make_field e (key_of kw) x = Ok f /\ dget tag_eqb (key_of kw) (b_dict b) = Some (Some f)).
  { intros fld kw I K. destruct (dget tag_eqb (key_of kw) (b_dict b)) as [x|] eqn:GE.
    2:{ exfalso. apply (dget_None _ tag_eqb_eq) in GE. apply GE, IK. right. eauto. }
    apply LK in GE. destruct GE as [(y & f & LA & MF & ->)|[_ X]]; [eauto 6|discriminate X]. }
  unfold bib_repr. rewrite T. cbn [bind].
  eapply at_most_then.
  - apply (map_at_most _ _ _ (fun k => k = key_of (tx "AUTHOR") /\ exists fld, last_such (field_keyword (tx "AUTHOR")) fs fld /\ author_missing fld)).
    intros k I. rewrite KS in I. apply in_map_iff in I. destruct I as (kw & <- & I).
    assert (EX : exists fld, In fld fs /\ field_keyword kw fld).
    { clear - F2 I. induction F2 as [|k f kws fs Q _ IH]; [destruct I|]. destruct I as [->|I]; [exists f; split; [now left|exact Q]|].
      destruct (IH I) as (x & J & L). exists x. split; [now right|exact L]. }
    destruct EX as (fld & J & K). destruct (GET fld kw J K) as (x & f & LA & MF & G). rewrite G. cbn [of_option bind].
    eapply at_most_iff; [exact (field_at_most _ _ _ _ MF)|]. split.
    + intros (-> & MI). split; [reflexivity|]. eauto.
    + intros (Q & y & LY & MI). apply key_of_inj in Q. subst kw. split; [reflexivity|]. rewrite (last_fun _ _ _ _ _ LA LY). exact MI.
  - split.
    + intros (k & _ & _ & fld & LA & MI). exists fs, fld. auto.
    + intros (fs' & fld & F' & LA & MI). assert (fs' = fs) by (rewrite <- (CH _ F), <- (CH _ F'); reflexivity). subst fs'.
      exists (key_of (tx "AUTHOR")). split; [|split; [reflexivity|eauto]]. rewrite KS. apply in_map. destruct (last_in _ _ _ _ LA) as (I & K).
      clear - F2 I K. induction F2 as [|k f kws fs Q _ IH]; [destruct I|]. destruct I as [->|I]; [left; exact (field_keyword_fun _ _ _ Q K)|right; auto].
Qed.

Lemma subentry_at_most : forall c e num text s, well_subentry c text -> numbered num text -> X4SubEntry e text = Ok s ->
  at_most (without_authors text) (subentry_repr s).
Proof.
  intros c e num text s W NU E. destruct (subentry_sections c e num text s W NU E) as (has & A & SK & HAS & EACH).
  unfold subentry_repr. rewrite A, SK. cbn [of_option bind]. eapply at_most_then.
  - apply (map_at_most _ _ _ (fun k => k = tx "BIB" /\ without_authors text)). intros k I. apply in_map_iff in I. destruct I as (name & <- & I).
    destruct (EACH name I) as (b & x & HB & X & B1 & B2). rewrite X. cbn [of_option bind]. destruct (string_dec name "BIB") as [->|NB].
    + destruct (B1 eq_refl) as (WB & bb & -> & EB). cbn [section_repr]. eapply at_most_iff; [exact (bib_at_most c e b bb WB EB)|]. split.
      * intros (fs & fld & F & LA & MI). split; [reflexivity|]. exists b, fs, fld. auto.
      * intros (_ & b' & fs & fld & HB' & F & LA & MI). exists fs, fld. rewrite (has_section_fun _ _ _ _ HB HB'). auto.
    + destruct (B2 NB) as (d & -> & ED). right. cbn [section_repr]. split; [|eauto]. intros (Q & _). apply NB.
      rewrite <- (string_of_list_ascii_of_string name). unfold tx in Q. rewrite Q. reflexivity.
  - split; [intros (_ & _ & _ & Q); exact Q|]. intro Q. exists (tx "BIB"). split; [|split; [reflexivity|exact Q]]. apply in_map, filter_In.
    split; [now left|]. apply HAS; [now left|]. destruct Q as (b & _ & _ & HB & _). eauto.
Qed.

Lemma entry_at_most : forall c e, well_dictionaries c e -> forall acc raw, well_entry c acc raw ->
  (forall num text, In text raw -> numbered num text -> length num = 8) ->
  exists n, X4Entry e raw = Ok n /\
    let missing := exists num text, last_such (numbered num) raw text /\ without_authors text in
    (~ missing -> exists t, entry_repr n = Ok t) /\ (missing -> entry_repr n = Raise AttributeError).
Proof.
  intros c e D acc raw W L8. destruct (entry_total c e D acc raw W) as (n & s1 & b1 & E & A & _ & _ & _).
  exists n. split; [exact E|]. cbv zeta. destruct (entry_sorted c e acc raw n W E) as (nums & SK & SS & IN & _ & KEY).
  assert (X : at_most (exists num text, last_such (numbered num) raw text /\ without_authors text) (entry_repr n)).
  2:{ destruct X as [(Q & X)|(Q & X)]; split; intro Z; try contradiction; assumption. }
  unfold entry_repr. rewrite SK. cbn [bind]. eapply at_most_then.
  - apply (map_at_most _ _ _ (fun k => exists num text, k = Some num /\ last_such (numbered num) raw text /\ without_authors text)).
    intros k I. apply in_map_iff in I. destruct I as (num & <- & I). destruct (KEY num I) as (text & s & LA & WT & S & G).
    destruct (last_in _ _ _ _ LA) as (IT & NU). rewrite (getitem_number _ _ _ (L8 num text IT NU) G). cbn [bind]. eapply at_most_iff; [exact (subentry_at_most c e num text s WT NU S)|]. split; [eauto 6|].
    intros (num' & text' & Q & LA' & Z). assert (num' = num) by congruence. subst num'. rewrite (last_fun _ _ _ _ _ LA LA'). exact Z.
  - split.
    + intros (_ & _ & num & text & _ & LA & Z). eauto.
    + intros (num & text & LA & Z). exists (Some num). destruct (last_in _ _ _ _ LA) as (IT & NU). split; [apply in_map, IN; eauto|eauto 6].
Qed.
