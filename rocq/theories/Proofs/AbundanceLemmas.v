(** The table of natural abundances. *)
From Coq Require Import String List Ascii NArith ZArith Bool Arith Lia.
From Verif.Model Require Import Py PyFloat Dicts Abundance.
From Verif.Spec Require Import Text Exfor Isotopes.
From Verif.Proofs Require Import StrLemmas NumLemmas IntLemmas FieldLemmas DataLemmas.
Import ListNotations.
Local Open Scope list_scope.

Lemma decimal_int : forall t n, decimal t n -> int_of_str t = Some (Z.of_N n).
Proof.
  intros t n (ds & -> & D & N & ->). pose proof (int_of_digits [] ds [] ltac:(constructor) ltac:(constructor) D N) as K.
  now rewrite app_nil_r in K.
Qed.

Lemma six_float : forall t n, six_decimals t n -> float_of_str t = Some (float_of_dec (mkDec false n (-6))).
Proof.
  intros t n (ip & fp & -> & D & F & N & L & ->).
  assert (G : good_mantissa ip (Some fp)).
  { split; [exact D|]. split; [exact F|]. cbn. destruct ip; [contradiction|discriminate]. }
  assert (E : digits_text ip ++ "."%char :: digits_text fp = mantissa_text SNone ip (Some fp) ++ []) by (rewrite app_nil_r; reflexivity).
  rewrite E. rewrite (float_of_mantissa SNone ip (Some fp) [] _ G).
  - cbn [scan_exp option_map]. cbn [frac_digits is_minus]. rewrite L. reflexivity.
  - rewrite app_nil_r. apply num_strip_both.
    destruct ip as [|d ip']; [contradiction|]. inversion D as [|? ? Dd D']; subst.
    destruct (app_last_inv _ fp) as [->|(fp' & e & ->)]; [discriminate|].
    apply Forall_app in F. destruct F as [_ F]. inversion F; subst.
    unfold mantissa_text. cbn [sign_text app digits_text map].
    replace (digit_char d :: map digit_char ip' ++ "."%char :: digits_text (fp' ++ [e]))
      with (digit_char d :: (map digit_char ip' ++ ["."%char]) ++ map digit_char fp' ++ [digit_char e])
      by (unfold digits_text; rewrite map_app, <- !app_assoc; reflexivity).
    apply strip_ends; now apply digit_not_space.
  - rewrite app_nil_r. apply mantissa_notin; auto; try discriminate. reflexivity.
  - discriminate.
Qed.

Definition iso_row (i : isotope) : (Z * Z) * (float * float) :=
  ((Z.of_N (iso_Z i), Z.of_N (iso_A i)),
   (float_of_dec (mkDec false (iso_percent i) (-6)), float_of_dec (mkDec false (iso_error i) (-6)))).

Lemma describes_row : forall line i, describes line i -> getAbundanceTuple line = Ok (iso_row i).
Proof.
  intros line i (z & a & x & y & W & Hz & Ha & Hx & Hy). unfold getAbundanceTuple.
  rewrite (words_split _ _ W). unfold idx. cbn [nth_error bind of_option].
  rewrite (decimal_int _ _ Hz), (decimal_int _ _ Ha), (six_float _ _ Hx), (six_float _ _ Hy). reflexivity.
Qed.

Lemma isotope_eqb_eq : forall a b, isotope_eqb a b = true <-> a = b.
Proof.
  intros [a b] [c d]. unfold isotope_eqb. cbn [fst snd]. rewrite andb_true_iff, !Z.eqb_eq. split.
  - intros [-> ->]. reflexivity.
  - intro E. now injection E.
Qed.

Definition put_row := fun (d : list ((Z * Z) * (float * float))) (kv : (Z * Z) * (float * float)) => dset isotope_eqb (fst kv) (snd kv) d.

Lemma dget_put : forall rows d k, (forall v, ~ In (k, v) rows) ->
  dget isotope_eqb k (fold_left put_row rows d) = dget isotope_eqb k d.
Proof.
  induction rows as [|[k' v'] rows IH]; intros d k N; cbn [fold_left]; auto.
  rewrite IH by (intros v H; apply (N v); now right).
  unfold put_row. cbn [fst snd]. rewrite (dget_dset _ _ isotope_eqb isotope_eqb_eq).
  destruct (isotope_eqb k k') eqn:E; auto.
  apply isotope_eqb_eq in E. subst. exfalso. apply (N v'). now left.
Qed.

Lemma dget_rows : forall rows d k v, NoDup (map fst rows) -> In (k, v) rows ->
  dget isotope_eqb k (fold_left put_row rows d) = Some v.
Proof.
  induction rows as [|[k' v'] rows IH]; intros d k v N H; [contradiction|]. cbn [fold_left].
  inversion N as [|? ? N1 N2]; subst. destruct H as [H|H].
  - injection H as -> ->. rewrite dget_put.
    + unfold put_row. cbn [fst snd]. rewrite (dget_dset _ _ isotope_eqb isotope_eqb_eq).
      now rewrite (proj2 (isotope_eqb_eq k k) eq_refl).
    + intros w Hw. apply N1. apply (in_map fst) in Hw. exact Hw.
  - now apply IH.
Qed.

Definition nat_key (k : N * N) : Z * Z := (Z.of_N (fst k), Z.of_N (snd k)).
Lemma iso_rows_keys : forall isos, map fst (map iso_row isos) = map nat_key (map iso_key isos).
Proof. intro isos. rewrite !map_map. reflexivity. Qed.
Lemma nodup_keys : forall l, NoDup l -> NoDup (map nat_key l).
Proof.
  induction 1 as [|[a b] l N _ IH]; cbn [map]; constructor; auto.
  intro H. apply in_map_iff in H. destruct H as ([c d] & E & H). unfold nat_key in E. cbn [fst snd] in E.
  injection E as E1 E2. apply N2Z.inj in E1, E2. now subst.
Qed.

Lemma slice_rows : forall (head rows : list str) last, length head = 5 ->
  zslice (head ++ rows ++ [last]) 5 (-1) = rows.
Proof.
  intros head rows last L. unfold zslice.
  assert (E : length (head ++ rows ++ [last]) = 6 + length rows) by (rewrite !app_length; cbn; lia).
  rewrite E.
  assert (C1 : clamp (Z.of_nat (6 + length rows)) 5 = 5%Z).
  { unfold clamp. repeat match goal with |- context [if ?b then _ else _] => let K := fresh in destruct b eqn:K end; try lia. }
  assert (C2 : clamp (Z.of_nat (6 + length rows)) (-1) = Z.of_nat (5 + length rows)).
  { unfold clamp. repeat match goal with |- context [if ?b then _ else _] => let K := fresh in destruct b eqn:K end; try lia. }
  rewrite C1, C2. replace (Z.to_nat (Z.of_nat (5 + length rows) - 5)) with (length rows) by lia.
  change (Z.to_nat 5) with 5. rewrite <- L. rewrite skipn_app, skipn_all, Nat.sub_diag. cbn [skipn app].
  rewrite firstn_app, firstn_all, Nat.sub_diag. cbn [firstn]. apply app_nil_r.
Qed.

Theorem abundance_lookup : forall head rows last isos, length head = 5 -> Forall2 describes rows isos -> NoDup (map iso_key isos) ->
  exists d, abundance_dict (head ++ rows ++ [last]) = Ok d /\
    (forall i, In i isos -> getAbundance d (Z.of_N (iso_Z i)) (Z.of_N (iso_A i)) =
       (float_of_dec (mkDec false (iso_percent i) (-6)), float_of_dec (mkDec false (iso_error i) (-6)))) /\
    (forall z a, (forall i, In i isos -> (Z.of_N (iso_Z i), Z.of_N (iso_A i)) <> (z, a)) -> getAbundance d z a = (fzero, fzero)).
Proof.
  intros head rows last isos L F N. exists (fold_left put_row (map iso_row isos) []).
  assert (NK : NoDup (map fst (map iso_row isos))) by (rewrite iso_rows_keys; now apply nodup_keys).
  split; [|split].
  - unfold abundance_dict. rewrite slice_rows by auto.
    assert (E : map_res getAbundanceTuple rows = Ok (map iso_row isos)).
    { clear - F. induction F as [|l i rows isos H _ IH]; cbn [map_res map]; auto.
      rewrite (describes_row _ _ H). cbn [bind]. now rewrite IH. }
    rewrite E. reflexivity.
  - intros i H. unfold getAbundance. rewrite (dget_rows _ _ _ (snd (iso_row i)) NK); auto.
    apply (in_map iso_row) in H. exact H.
  - intros z a H. unfold getAbundance. rewrite dget_put; auto.
    intros v Hv. apply in_map_iff in Hv. destruct Hv as (i & E & Hi). apply (H i Hi). exact (f_equal fst E).
Qed.

(** ** the shipped table *)

Fixpoint read_digits (s : str) : option (list N) :=
  match s with
  | [] => Some []
  | c :: s' => let n := (N_of_ascii c - 48)%N in
    if ((48 <=? N_of_ascii c) && (n <? 10))%N && Ascii.eqb (digit_char n) c
    then match read_digits s' with Some l => Some (n :: l) | None => None end else None
  end.
Lemma read_digits_ok : forall s ds, read_digits s = Some ds -> s = digits_text ds /\ is_digits ds.
Proof.
  induction s as [|c s IH]; intros ds H; cbn [read_digits] in H.
  - injection H as <-. split; [reflexivity|constructor].
  - set (n := (N_of_ascii c - 48)%N) in H.
    destruct (((48 <=? N_of_ascii c) && (n <? 10))%N && Ascii.eqb (digit_char n) c) eqn:E; [|discriminate].
    destruct (read_digits s) as [l|]; [|discriminate]. injection H as <-.
    destruct (IH l eq_refl) as [-> D]. rewrite !andb_true_iff in E. destruct E as [[_ E1] E2].
    apply N.ltb_lt in E1. apply Ascii.eqb_eq in E2. split.
    + unfold digits_text. cbn [map]. now rewrite E2.
    + now constructor.
Qed.

Definition read_decimal (s : str) : option N :=
  match read_digits s with Some (d :: l) => Some (value10 (d :: l)) | _ => None end.
Lemma read_decimal_ok : forall s n, read_decimal s = Some n -> decimal s n.
Proof.
  intros s n H. unfold read_decimal in H. destruct (read_digits s) as [[|d l]|] eqn:E; try discriminate.
  injection H as <-. destruct (read_digits_ok _ _ E) as [E' D]. exists (d :: l).
  split; [exact E'|]. split; [exact D|]. split; [discriminate|reflexivity].
Qed.

Definition read_six (s : str) : option N :=
  let k := length s - 7 in
  match read_digits (firstn k s), skipn k s with
  | Some (d :: l), c :: t =>
      match read_digits t with
      | Some f => if (c =? ".")%char && (length f =? 6)%nat then Some (value10 ((d :: l) ++ f)) else None
      | None => None
      end
  | _, _ => None
  end.
Lemma read_six_ok : forall s n, read_six s = Some n -> six_decimals s n.
Proof.
  intros s n H. unfold read_six in H. set (k := length s - 7) in H.
  destruct (read_digits (firstn k s)) as [[|d l]|] eqn:E; try discriminate.
  destruct (skipn k s) as [|c t] eqn:K; [discriminate|].
  destruct (read_digits t) as [f|] eqn:F; [|discriminate].
  destruct ((c =? ".")%char && (length f =? 6)%nat) eqn:B; [|discriminate]. injection H as <-.
  apply andb_true_iff in B. destruct B as [B1 B2]. apply Ascii.eqb_eq in B1. apply Nat.eqb_eq in B2. subst c.
  destruct (read_digits_ok _ _ E) as [E' D]. destruct (read_digits_ok _ _ F) as [F' G].
  exists (d :: l), f. split; [|split; [exact D|split; [exact G|split; [discriminate|split; [exact B2|reflexivity]]]]].
  rewrite <- E', <- F', <- K. symmetry. apply firstn_skipn.
Qed.

Definition read_isotope (line : str) : option isotope :=
  match split_ws line with
  | [z; a; s; x; y] =>
      match read_decimal z, read_decimal a, read_six x, read_six y with
      | Some Z, Some A, Some p, Some e => Some (mkIso Z A s p e)
      | _, _, _, _ => None
      end
  | _ => None
  end.
Lemma read_isotope_ok : forall line i, read_isotope line = Some i -> describes line i.
Proof.
  intros line i H. unfold read_isotope in H. pose proof (split_words line) as W.
  destruct (split_ws line) as [|z [|a [|s [|x [|y [|]]]]]]; try discriminate.
  destruct (read_decimal z) as [Z|] eqn:E1; [|discriminate]. destruct (read_decimal a) as [A|] eqn:E2; [|discriminate].
  destruct (read_six x) as [p|] eqn:E3; [|discriminate]. destruct (read_six y) as [e|] eqn:E4; [|discriminate].
  injection H as <-. exists z, a, x, y. cbn [iso_symbol iso_Z iso_A iso_percent iso_error].
  split; [exact W|]. split; [now apply read_decimal_ok|]. split; [now apply read_decimal_ok|].
  split; now apply read_six_ok.
Qed.

Fixpoint all_some {A : Type} (l : list (option A)) : option (list A) :=
  match l with
  | [] => Some []
  | Some x :: l' => match all_some l' with Some r => Some (x :: r) | None => None end
  | None :: _ => None
  end.
Lemma all_some_describes : forall rows isos, all_some (map read_isotope rows) = Some isos -> Forall2 describes rows isos.
Proof.
  induction rows as [|r rows IH]; intros isos H; cbn [map all_some] in H.
  - injection H as <-. constructor.
  - destruct (read_isotope r) as [i|] eqn:E; [|discriminate].
    destruct (all_some (map read_isotope rows)) as [l|]; [|discriminate]. injection H as <-.
    constructor; [now apply read_isotope_ok|now apply IH].
Qed.

Definition shipped_rows : list str := zslice abundance_data 5 (-1).
Definition shipped_isotopes : list isotope := match all_some (map read_isotope shipped_rows) with Some l => l | None => [] end.

Definition key_eqb (a b : N * N) : bool := ((fst a =? fst b) && (snd a =? snd b))%N.
Fixpoint distinct (l : list (N * N)) : bool :=
  match l with [] => true | k :: l' => negb (existsb (key_eqb k) l') && distinct l' end.
Lemma distinct_ok : forall l, distinct l = true -> NoDup l.
Proof.
  induction l as [|k l IH]; intro H; constructor; cbn [distinct] in H; apply andb_true_iff in H; destruct H as [H1 H2]; auto.
  intro K. apply negb_true_iff in H1. assert (existsb (key_eqb k) l = true); [|congruence].
  apply existsb_exists. exists k. split; auto. unfold key_eqb. now rewrite !N.eqb_refl.
Qed.

Definition symbol_ok (i : isotope) : bool :=
  match endl_ZSymbol (Z.of_N (iso_Z i)) with Some s => str_eqb s (iso_symbol i) | None => false end.

Lemma symbol_ok_eq : forall i, symbol_ok i = true -> endl_ZSymbol (Z.of_N (iso_Z i)) = Some (iso_symbol i).
Proof.
  intro i. unfold symbol_ok. generalize (endl_ZSymbol (Z.of_N (iso_Z i))). intros [s|] H; [|discriminate H].
  apply str_eqb_eq in H. now rewrite H.
Qed.
Lemma forallb_Forall : forall (A : Type) (f : A -> bool) (P : A -> Prop), (forall x, f x = true -> P x) ->
  forall l, forallb f l = true -> Forall P l.
Proof.
  intros A f P H l. induction l as [|x l IH]; intro K; constructor; cbn [forallb] in K; apply andb_true_iff in K; destruct K; auto.
Qed.

Theorem shipped_table : exists head rows last isos,
  abundance_data = head ++ rows ++ [last] /\ length head = 5 /\ length rows = 287 /\ Forall2 describes rows isos /\
  NoDup (map iso_key isos) /\
  Forall (fun i => endl_ZSymbol (Z.of_N (iso_Z i)) = Some (iso_symbol i)) isos /\
  Forall (fun i => (0 < iso_percent i <= 100000000)%N /\ (iso_Z i <= iso_A i)%N) isos /\
  (forall z, In z (map iso_Z isos) -> (99996000 <= total z isos <= 100004000)%N).
Proof.
  exists (firstn 5 abundance_data), shipped_rows, (last abundance_data []), shipped_isotopes.
  split; [vm_compute; reflexivity|]. split; [vm_compute; reflexivity|]. split; [vm_compute; reflexivity|].
  split; [apply all_some_describes; vm_compute; reflexivity|].
  split; [apply distinct_ok; vm_compute; reflexivity|].
  split; [|split].
  - apply (forallb_Forall _ symbol_ok _ symbol_ok_eq). vm_compute. reflexivity.
  - apply (forallb_Forall _ (fun i => (0 <? iso_percent i)%N && (iso_percent i <=? 100000000)%N && (iso_Z i <=? iso_A i)%N)).
    + intros i H. rewrite !andb_true_iff in H. destruct H as [[H1 H2] H3]. apply N.ltb_lt in H1. apply N.leb_le in H2, H3. auto.
    + vm_compute. reflexivity.
  - apply Forall_forall.
    apply (forallb_Forall _ (fun z => (99996000 <=? total z shipped_isotopes)%N && (total z shipped_isotopes <=? 100004000)%N)).
    + intros z H. apply andb_true_iff in H. destruct H as [H1 H2]. apply N.leb_le in H1, H2. auto.
    + vm_compute. reflexivity.
Qed.
