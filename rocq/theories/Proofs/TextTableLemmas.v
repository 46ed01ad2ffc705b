(** Tables as they are written, and what the DATA and COMMON sections read. *)
From Coq Require Import String List Ascii NArith ZArith Bool Arith Lia Sorting.Sorted.
From Coq Require Import Floats.SpecFloat.
From Verif.Model Require Import Py PyFloat Utilities Dicts Particle Reaction Field Section Entry Columns Dataset.
From Verif.Spec Require Import Text Exfor Tables DataSets Merging Codes Balance Document.
From Verif.Proofs Require Import StrLemmas NumLemmas IntLemmas ReactionLemmas DataLemmas UnitLemmas MergeLemmas DatasetLemmas CrossLemmas.
Import ListNotations.
Local Open Scope string_scope.
Local Open Scope list_scope.
Local Open Scope nat_scope.

(** ** Numbers *)

Lemma plain_number : forall sg ip fr, good_mantissa ip fr -> float_of_str (mantissa_text sg ip fr) = Some (decimal sg ip fr 0).
Proof.
  intros sg ip fr G. rewrite (float_of_mantissa sg ip fr [] (mantissa_text sg ip fr) G).
  - cbn [scan_exp option_map]. unfold decimal. now rewrite Z.sub_0_l.
  - rewrite app_nil_r. apply num_strip_both. apply strip_id.
    + intros c t E. destruct (mantissa_starts sg ip fr G) as (x & m & E' & S). rewrite E' in E. injection E as <- _. exact S.
    + intros t c E. destruct (mantissa_ends sg ip fr G) as (m & x & E' & S). rewrite E' in E. apply app_inj_tail in E. destruct E as [_ <-].
      destruct S as [S| ->]; [|reflexivity]. destruct (dig_digit x S) as (d & Hd & ->). now apply digit_not_space.
  - rewrite app_nil_r. apply mantissa_notin; auto; try discriminate; reflexivity.
  - discriminate.
Qed.

Lemma number_parsed : forall s x, Document.number_text s x -> parseFORTRANNumber s = Ok x.
Proof.
  intros s x H. destruct H as [|sg ip fr G|sg ip fr k m ds G D N|sg ip fr k m ds G D N].
  - reflexivity.
  - apply parse_of_float. now apply plain_number.
  - exact (gapped_exponent sg ip fr k m ds G D N).
  - exact (missing_exponent sg ip fr k m ds G D N).
Qed.

Lemma number_int : forall s n, number_is s n -> int_of_str s = Some n.
Proof.
  intros s n (ds & -> & D & N & ->). rewrite <- (app_nil_r (digits_text ds)). apply (int_of_digits [] ds []); auto; constructor.
Qed.

(** ** Cells *)

Lemma cell_unique : forall lines k j t t', table_cell lines k j t -> table_cell lines k j t' -> t = t'.
Proof.
  intros lines k j t t' (l & E & T) (l' & E' & T'). rewrite E in E'. injection E' as <-.
  apply trimmed_unique in T, T'. congruence.
Qed.
Lemma words_unique : forall s a b, words s a -> words s b -> a = b.
Proof. intros s a b A B. apply words_split in A, B. congruence. Qed.

Lemma getitem_label : forall d j t, data_getitem d (inl (lit "LABELS")) (Z.of_nat j) = Ok (DText t) -> nth_error (d_labels d) j = Some t.
Proof.
  intros d j t E. unfold data_getitem in E. change (str_eqb (lit "LABELS") (lit "LABELS")) with true in E. cbv iota in E.
  apply bind_ok in E. destruct E as (l & E & X). injection X as ->. now apply zidx_nat.
Qed.
Lemma getitem_unit : forall d j t, data_getitem d (inl (lit "UNITS")) (Z.of_nat j) = Ok (DText t) -> nth_error (d_units d) j = Some t.
Proof.
  intros d j t E. unfold data_getitem in E. change (str_eqb (lit "UNITS") (lit "LABELS")) with false in E.
  change (str_eqb (lit "UNITS") (lit "UNITS")) with true in E. cbv iota in E.
  apply bind_ok in E. destruct E as (l & E & X). injection X as ->. now apply zidx_nat.
Qed.
Lemma getitem_number : forall d i j v, data_getitem d (inr (Z.of_nat i)) (Z.of_nat j) = Ok (DNum v) ->
  exists row, nth_error (d_data d) i = Some row /\ nth_error row j = Some v.
Proof.
  intros d i j v E. unfold data_getitem in E. apply bind_ok in E. destruct E as (row & E & X). apply bind_ok in X. destruct X as (v' & E' & X).
  injection X as ->. exists row. split; now apply zidx_nat.
Qed.

Lemma same_length_nth : forall (A : Type) (l m : list A), length l = length m ->
  (forall i x, nth_error m i = Some x -> nth_error l i = Some x) -> l = m.
Proof.
  intros A l m L H. apply nth_error_ext. intros i. destruct (nth_error m i) as [x|] eqn:E; [now apply H|].
  apply nth_error_None in E. apply nth_error_None. lia.
Qed.

Lemma header_fold_labels : forall c ks l u p l' u' p', fold_res (header_step c) ks (l, u, p) = Ok (l', u', p') ->
  (forall x, In x l' -> length x <> 11) -> p' = p.
Proof.
  intros c. induction ks as [|k ks IH]; intros l u p l' u' p' E H; [now injection E|].
  cbn [fold_res] in E. apply bind_ok in E. destruct E as ([[l1 u1] p1] & E1 & E2).
  assert (K : forall ks l u p l' u' p', fold_res (header_step c) ks (l, u, p) = Ok (l', u', p') -> incl l l').
  { clear. induction ks as [|k ks IH]; intros l u p l' u' p' E; [injection E as <- <- <-; apply incl_refl|].
    cbn [fold_res] in E. apply bind_ok in E. destruct E as ([[l1 u1] p1] & E1 & E2). apply IH in E2.
    unfold header_step in E1. apply bind_ok in E1. destruct E1 as (r0 & R0 & E1). apply bind_ok in E1. destruct E1 as (r1 & R1 & E1).
    intros x I. apply E2. destruct (length (cell r0 k) =? 11); injection E1 as <- <- <-; apply in_or_app; now left. }
  pose proof (K _ _ _ _ _ _ _ E2) as I1. rewrite (IH _ _ _ _ _ _ E2 H).
  unfold header_step in E1. apply bind_ok in E1. destruct E1 as (r0 & R0 & E1). apply bind_ok in E1. destruct E1 as (r1 & R1 & E1).
  destruct (length (cell r0 k) =? 11) eqn:Q; injection E1 as <- <- <-; [|reflexivity]. exfalso.
  apply Nat.eqb_eq in Q. apply (H (cell r0 k)); [|exact Q]. apply I1, in_or_app. right. now left.
Qed.

Lemma data_counted : forall tag lines d nc l0 rest w0 w1 w2 ws m rows, X4DataSection tag lines = Ok d ->
  d_numcols d = Z.of_nat nc -> 0 < nc -> lines = l0 :: rest -> words (columns 0 33 l0) (w0 :: w1 :: w2 :: ws) ->
  int_of_str w2 = Some (Z.of_nat m) -> length lines = 2 + (rows + 2) * lines_per_row nc ->
  In m [rows; rows + 2; (rows + 2) * lines_per_row nc] -> d_numrows d = Z.of_nat rows.
Proof.
  intros tag lines d nc l0 rest w0 w1 w2 ws m rows H NC P E W I LL IM.
  apply data_ok in H. destruct H as (l0' & f1 & f2 & n0' & c & rws & H0 & H1 & I1 & H2 & I2 & _ & HL & HS & _).
  rewrite E in H0. injection H0 as <-. apply words_split in W. change (columns 0 33 l0) with (firstn 33 l0) in W.
  rewrite W in H2. injection H2 as <-. rewrite I2 in I. injection I as ->.
  destruct (lpr_pos nc P) as [LP KP]. rewrite HL, NC, LP, LL in HS. set (k := lines_per_row nc) in *.
  apply settle_spec in HS; [|lia].
  destruct IM as [<-|[<-|[<-|[]]]].
  - destruct HS as [(_ & Q)|[(N & _)|(N & _)]]; [exact Q|lia|lia].
  - destruct HS as [(Q & _)|[(_ & _ & Q)|(_ & N & _)]]; [nia|lia|lia].
  - destruct HS as [(Q & _)|[(_ & C & Q)|(_ & N & _ & Q)]].
    + exfalso. nia.
    + assert (k = 1) by nia. lia.
    + rewrite Nat2Z.inj_mul, Z.div_mul in Q by lia. lia.
Qed.

Lemma table_read : forall tag lines d heads rows, X4DataSection tag lines = Ok d -> written_table lines heads rows ->
  d_numcols d = Z.of_nat (length heads) /\ d_numrows d = Z.of_nat (length rows) /\
  d_labels d = map (fun h : heading => lit (fst h)) heads /\ d_units d = map (fun h : heading => lit (snd h)) heads /\
  d_data d = rows /\ d_pointers d = [].
Proof.
  intros tag lines d heads rows E (NE & C & (l0 & rest & w0 & w1 & w2 & ws & -> & W & N1 & m & N2 & IM) & LL & HH & LR & HR).
  destruct (data_shape _ _ _ E) as ((l0' & rest' & v0 & v1 & v2 & vs & n0 & EL & W' & I1 & I2) & LA & LU & LD & RL & _).
  injection EL as <- <-. pose proof (words_unique _ _ _ W W') as X. injection X as <- <- <- <-.
  rewrite (number_int _ _ N1) in I1. injection I1 as NC. symmetry in NC.
  assert (P : 0 < length heads) by (destruct heads; [congruence|cbn; lia]).
  pose proof (data_counted _ _ _ _ _ _ _ _ _ _ _ _ E NC P eq_refl W (number_int _ _ N2) LL IM) as NR.
  assert (DL := data_layout _ _ _ _ E NC C). cbv zeta in DL.
  rewrite NC, Nat2Z.id in LA, LU, RL. rewrite NR, Nat2Z.id in LD.
  assert (Q1 : d_labels d = map (fun h : heading => lit (fst h)) heads).
  { apply same_length_nth; [now rewrite map_length|]. intros j x N. rewrite nth_error_map_eq in N.
    destruct (nth_error heads j) as [[l u]|] eqn:Nh; [|discriminate]. injection N as <-. cbn [fst].
    destruct (DL j (nth_error_lt _ _ _ _ Nh)) as ((t & G & T) & _). apply getitem_label in G. rewrite G. f_equal.
    destruct (HH _ _ _ Nh) as (_ & _ & T' & _). exact (cell_unique _ _ _ _ _ T T'). }
  assert (Q2 : d_units d = map (fun h : heading => lit (snd h)) heads).
  { apply same_length_nth; [now rewrite map_length|]. intros j x N. rewrite nth_error_map_eq in N.
    destruct (nth_error heads j) as [[l u]|] eqn:Nh; [|discriminate]. injection N as <-. cbn [snd].
    destruct (DL j (nth_error_lt _ _ _ _ Nh)) as (_ & (t & G & T) & _). apply getitem_unit in G. rewrite G. f_equal.
    destruct (HH _ _ _ Nh) as (_ & _ & _ & T'). exact (cell_unique _ _ _ _ _ T T'). }
  assert (Q3 : d_data d = rows).
  { apply same_length_nth; [exact LD|]. intros i row Ni. destruct (nth_error_ex _ (d_data d) i) as [row' Nr]; [rewrite LD; now apply nth_error_lt in Ni|].
    rewrite Nr. f_equal. rewrite Forall_forall in LR. pose proof (LR _ (nth_error_In _ _ Ni)) as Lr.
    apply same_length_nth; [rewrite (RL _ (nth_error_In _ _ Nr)); congruence|]. intros j x Nj.
    assert (J : j < length heads) by (rewrite <- Lr; now apply nth_error_lt in Nj).
    destruct (DL j J) as (_ & _ & G). destruct (G i) as (t & v & T & Pv & Gv); [rewrite NR, Nat2Z.id; now apply nth_error_lt in Ni|].
    apply getitem_number in Gv. destruct Gv as (row2 & N2r & Nv). rewrite Nr in N2r. injection N2r as <-.
    destruct (HR _ _ _ _ Ni Nj) as (t' & T' & Nt). rewrite (cell_unique _ _ _ _ _ T T') in Pv. rewrite (number_parsed _ _ Nt) in Pv. congruence. }
  repeat (split; [assumption|]).
  apply data_ok in E. clear W W' N1 N2. destruct E as (? & ? & ? & ? & c & ? & _ & _ & _ & _ & _ & _ & _ & _ & _ & HF & _).
  apply header_fold_labels in HF; [exact HF|]. rewrite Q1. intros lab I. apply in_map_iff in I. destruct I as ([l u] & <- & I).
  destruct (In_nth_error _ _ I) as [j Nj]. destruct (HH _ _ _ Nj) as (Ll & _). cbn [fst]. unfold lit.
  intros XX. enough (length (list_ascii_of_string l) = String.length l) by lia. clear. induction l; cbn; auto.
Qed.

(** ** COMMON and DATA together *)

Lemma no_pointers_own : forall d p, d_pointers d = [] -> all_own d p.
Proof. intros d p E j q cols I. rewrite E in I. contradiction. Qed.
Lemma select_all : forall (A : Type) (l : list A) k, select (fun _ => true) k l = l.
Proof. induction l as [|x l IH]; intros k; [reflexivity|]. cbn [select]. now rewrite IH. Qed.

Lemma string_len : forall l, length (lit l) = String.length l.
Proof. induction l; cbn; auto. Qed.

Lemma cell_trimmed : forall lines k j t, table_cell lines k j t -> strip t = t.
Proof.
  intros lines k j t (l & _ & T). apply trimmed_unique in T. destruct T. apply trimmed_unique. 
  destruct (strip_trimmed (columns (11 * (j mod 6)) (11 * (j mod 6) + 11) l)) as (a & b & _ & _ & _ & X). exists [], []. rewrite app_nil_r. repeat split; auto; try constructor; apply X.
Qed.

Lemma heads_short : forall lines heads rows h, written_table lines heads rows -> In h heads ->
  shortened (lit (fst h)) (lit (fst h)) /\ shortened (lit (snd h)) (lit (snd h)).
Proof.
  intros lines heads rows [l u] (_ & _ & _ & _ & HH & _) I. destruct (In_nth_error _ _ I) as [j N]. destruct (HH _ _ _ N) as (A & B & T & T').
  cbn [fst snd]. unfold shortened. split.
  - rewrite firstn_all2 by (rewrite string_len; exact A). apply strip_iff. exact (cell_trimmed _ _ _ _ T).
  - rewrite firstn_all2 by (rewrite string_len; exact B). apply strip_iff. exact (cell_trimmed _ _ _ _ T').
Qed.

Definition common_is (c : option (nat * data_section)) (heads : list heading) (row : list (option float)) : Prop :=
  match c with
  | None => heads = [] /\ row = []
  | Some (_, c) => exists tag lines, X4DataSection tag lines = Ok c /\ written_table lines heads [row]
  end.

Lemma Forall2_shortened_unique : forall l m n, Forall2 shortened l m -> Forall2 shortened l n -> m = n.
Proof.
  intros l m n H. revert n. induction H as [|x y l m E H IH]; intros n K; inversion K as [|? z ? n' E' K']; subst; [reflexivity|].
  f_equal; [|now apply IH]. apply trimmed_unique in E, E'. congruence.
Qed.

Lemma table_merged : forall tag lines d heads rows c1 h1 r1 c2 h2 r2 p,
  X4DataSection tag lines = Ok d -> written_table lines heads rows ->
  common_is c1 h1 r1 -> common_is c2 h2 r2 -> different c1 c2 ->
  setData d [c1; c2] p = Ok (full_table (h1 ++ h2 ++ heads) (map (fun row => r1 ++ r2 ++ row) rows)).
Proof.
  intros tag lines d heads rows c1 h1 r1 c2 h2 r2 p E W C1 C2 Df.
  destruct (table_read _ _ _ _ _ E W) as (NC & NR & QL & QU & QD & QP).
  assert (CC : forall c h r, common_is c h r ->
    (forall i k, c = Some (i, k) -> section_ok k /\ all_own k p) /\
    common_labels (option_map snd c) = map (fun x : heading => lit (fst x)) h /\
    common_units (option_map snd c) = map (fun x : heading => lit (snd x)) h /\
    (forall i, common_row (option_map snd c) i = map as_cell r) /\
    forall x, In x h -> shortened (lit (fst x)) (lit (fst x)) /\ shortened (lit (snd x)) (lit (snd x))).
  { intros c h r X. destruct c as [[i k]|]; cbn [common_is option_map snd] in *.
    - destruct X as (tg & ls & Ek & Wk). destruct (table_read _ _ _ _ _ Ek Wk) as (A & B & D & F & G & P).
      split; [intros i' k' X; injection X as <- <-; split; [now apply parsed_section_ok in Ek|now apply no_pointers_own]|].
      split; [exact D|]. split; [exact F|]. split; [|intros x; now apply (heads_short ls h [r])].
      intros i'. cbn [common_row]. rewrite B, G. reflexivity.
    - destruct X as [-> ->]. split; [discriminate|]. repeat split; contradiction. }
  destruct (CC _ _ _ C1) as (O1 & L1 & U1 & R1 & S1). destruct (CC _ _ _ C2) as (O2 & L2 & U2 & R2 & S2).
  destruct (set_data d c1 c2 p (fun _ => true)) as (t & us & Es & FL & EU & FU & LD & ND); auto.
  - now apply parsed_section_ok in E.
  - intros j. split; [intros _|reflexivity]. now apply no_pointers_own.
  - rewrite Es. f_equal. rewrite L1, L2, QL, select_all, <- !map_app in FL. rewrite U1, U2, QU, select_all, <- !map_app in FU.
    assert (SH : forall x, In x (h1 ++ h2 ++ heads) -> shortened (lit (fst x)) (lit (fst x)) /\ shortened (lit (snd x)) (lit (snd x))).
    { intros x I. apply in_app_or in I. destruct I as [I|I]; [now apply S1|]. apply in_app_or in I. destruct I as [I|I]; [now apply S2|].
      now apply (heads_short lines heads rows). }
    destruct t as [tl tu td]. cbn [t_labels t_units t_data] in *. unfold full_table. f_equal.
    + apply (Forall2_shortened_unique _ _ _ FL). revert SH. generalize (h1 ++ h2 ++ heads). induction l as [|x l IH]; intros SH; constructor.
      * apply SH. now left.
      * apply IH. intros y I. apply SH. now right.
    + rewrite EU. rewrite <- (map_map (fun h : heading => lit (snd h)) Some). f_equal. apply (Forall2_shortened_unique _ _ _ FU).
      revert SH. generalize (h1 ++ h2 ++ heads). induction l as [|x l IH]; intros SH; constructor.
      * apply SH. now left.
      * apply IH. intros y I. apply SH. now right.
    + rewrite QD in LD, ND. rewrite map_map. apply same_length_nth; [now rewrite map_length|]. intros i x N. rewrite nth_error_map_eq in N.
      destruct (nth_error rows i) as [row|] eqn:Nr; [|discriminate]. injection N as <-. rewrite (ND i row Nr), R1, R2, select_all, !map_app. reflexivity.
Qed.
