(** Column parsers: what their methods return, whatever their attributes held before. *)
From Coq Require Import String List Ascii NArith ZArith Bool Arith Lia.
From Verif.Model Require Import Py PyFloat Columns.
From Verif.Proofs Require Import ReactionLemmas ProgLemmas.
Import ListNotations.
Local Open Scope list_scope.
Local Open Scope nat_scope.

Definition slot_parser (pr : pair) (slot : nat) : option colparser :=
  match pr, slot with
  | (MissingError c1 | ConstantPercent c1 | Independent c1 _ | HighLow c1 _
     | HighMidLow c1 _ _ | AddErrorBars c1 _ _), 1 => Some c1
  | (Independent _ c2 | HighLow _ c2 | HighMidLow _ c2 _ | AddErrorBars _ c2 _ | BarnsSqrtE c2 _), 2 => Some c2
  | (HighMidLow _ _ c3 | AddErrorBars _ _ c3 | BarnsSqrtE _ c3), 3 => Some c3
  | _, _ => None
  end.

Definition icol (c : colparser) (d : table) : Z := match firstMatch c d with Ok i => i | Raise _ => (-1)%Z end.
Definition agrees (f : store) (p : parser) (d : table) : Prop :=
  forall slot c, slot_parser (snd p) slot = Some c -> f (fst p) slot = icol c d.
Definition knows (K : known) (p : parser) : Prop :=
  forall slot c, slot_parser (snd p) slot = Some c -> K (fst p) slot.

Definition set_res (pr : pair) (d : table) : res unit :=
  match pr with
  | MissingError c1 | ConstantPercent c1 => _ <- firstMatch c1 d ;; Ok tt
  | Independent c1 c2 | HighLow c1 c2 => _ <- firstMatch c1 d ;; _ <- firstMatch c2 d ;; Ok tt
  | HighMidLow c1 c2 c3 | AddErrorBars c1 c2 c3 =>
      _ <- firstMatch c1 d ;; _ <- firstMatch c2 d ;; _ <- firstMatch c3 d ;; Ok tt
  | BarnsSqrtE c2 c3 => _ <- firstMatch c2 d ;; _ <- firstMatch c3 d ;; Ok tt
  end.

Definition found (c : colparser) (d : table) : bool := (0 <=? icol c d)%Z.
Definition match_ok (pr : pair) (d : table) : bool :=
  match pr with
  | MissingError c1 | ConstantPercent c1 => found c1 d
  | Independent c1 c2 => found c1 d && found c2 d
  | HighLow c1 c2 => found c1 d || found c2 d
  | HighMidLow c1 c2 c3 | AddErrorBars c1 c2 c3 => found c1 d && (found c2 d || found c3 d)
  | BarnsSqrtE c2 c3 => found c2 d
  end.
Definition the_column (acos : float -> option float) (c : colparser) (d : table) : res column :=
  getColumn acos c (icol c d) d.

Definition raw_value (energy : table -> res column) (acos : float -> option float) (pr : pair) (d : table) : res column :=
  match pr with
  | MissingError c1 | ConstantPercent c1 | Independent c1 _ | AddErrorBars c1 _ _ => the_column acos c1 d
  | HighLow c1 c2 =>
      col1 <- the_column acos c1 d ;; col2 <- the_column acos c2 d ;; Ok (high_low_value d col1 col2)
  | HighMidLow c1 c2 c3 =>
      col1 <- the_column acos c1 d ;; col2 <- the_column acos c2 d ;; col3 <- the_column acos c3 d ;;
      Ok (high_mid_low_value d col1 col2 col3)
  | BarnsSqrtE c2 _ => col1 <- energy d ;; col2 <- the_column acos c2 d ;; over_sqrt_energy (Some fzero) d col1 col2
  end.
Definition value_of0 (energy : table -> res column) acos (pr : pair) (d : table) : res column :=
  _ <- set_res pr d ;;
  if negb (match_ok pr d) then Ok (dummy_column d) else raw_value energy acos pr d.

Definition raw_error (energy : table -> res column) (acos : float -> option float) (pr : pair) (d : table) : res column :=
  match pr with
  | MissingError _ => Ok (dummy_column d)
  | Independent c1 c2 =>
      err <- the_column acos c2 d ;;
      if is_percent (c_unit err) then col <- the_column acos c1 d ;; percent_error col err else Ok err
  | ConstantPercent c1 =>
      col <- the_column acos c1 d ;;
      Ok (mkColumn (c_label col) (c_unit col)
            (map (option_map (fun x => fdiv (fmul x (fl 10 0)) hundred)) (c_cells col)))
  | HighLow c1 c2 =>
      col1 <- the_column acos c1 d ;; col2 <- the_column acos c2 d ;; Ok (high_low_error d col1 col2)
  | HighMidLow c1 c2 c3 =>
      col1 <- the_column acos c1 d ;; col2 <- the_column acos c2 d ;; col3 <- the_column acos c3 d ;;
      Ok (high_mid_low_error d col1 col2 col3)
  | AddErrorBars c1 c2 c3 =>
      col2 <- the_column acos c2 d ;; col3 <- the_column acos c3 d ;;
      if is_percent (c_unit col2) || is_percent (c_unit col3) then
        col1 <- the_column acos c1 d ;;
        add_bars d (c_unit col1) (scaled_by_value d (c_cells col1) (c_cells col2))
                 (scaled_by_value d (c_cells col1) (c_cells col3))
      else add_bars d (last_given [c_unit col2; c_unit col3]) (c_cells col2) (c_cells col3)
  | BarnsSqrtE _ c3 => col1 <- energy d ;; col3 <- the_column acos c3 d ;; over_sqrt_energy None d col1 col3
  end.
Definition error_of0 (energy : table -> res column) acos (pr : pair) (d : table) : res column :=
  match pr with
  | MissingError _ => Ok (dummy_column d)
  | _ =>
      _ <- set_res pr d ;;
      if negb (match_ok pr d) then Ok (dummy_column d)
      else col <- raw_error energy acos pr d ;; Ok (absOrNone col)
  end.

(** There is never an energy column. *)
Definition no_energy : table -> res column := fun _ => Raise TypeError.
Definition value_of := value_of0 no_energy.
Definition error_of := error_of0 no_energy.

Lemma icol_ok : forall c d i, firstMatch c d = Ok i -> icol c d = i.
Proof. intros c d i H. unfold icol. now rewrite H. Qed.

Lemma set_icol_follows : forall f K id slot c d, f id slot = icol c d ->
  exists K', follows f K (set_icol id slot c d) (_ <- firstMatch c d ;; Ok tt) K' /\
    forall i, firstMatch c d = Ok i -> K' id slot.
Proof.
  intros f K id slot c d H. unfold set_icol, pput. destruct (firstMatch c d) as [i|e] eqn:E; cbn.
  - exists (add_known K id slot). split.
    + constructor; [rewrite H; unfold icol; now rewrite E|]. constructor.
    + intros i' _. right. auto.
  - exists K. split; [constructor|discriminate].
Qed.

Lemma set_icols_follows : forall f p d K, agrees f p d ->
  exists K', follows f K (set_icols p d) (set_res (snd p) d) K' /\ (forall u, set_res (snd p) d = Ok u -> knows K' p).
Proof.
  intros f [id pr] d K A. unfold agrees, knows in *. cbn [fst snd] in *.
  assert (one : forall slot c, slot_parser pr slot = Some c -> forall L,
    exists L', follows f L (set_icol id slot c d) (_ <- firstMatch c d ;; Ok tt) L' /\
      (forall i, firstMatch c d = Ok i -> L' id slot) /\ forall a b, L a b -> L' a b).
  { intros slot c E L. destruct (set_icol_follows f L id slot c d (A _ _ E)) as (L' & F & N).
    exists L'. split; [assumption|]. split; [assumption|]. apply (follows_grows _ _ _ _ _ _ F). }
  unfold set_icols; cbn [fst snd].
  destruct pr as [c1|c1 c2|c1|c1 c2|c1 c2 c3|c1 c2 c3|c2 c3]; cbn [set_res].
  - destruct (one 1 c1 eq_refl K) as (K1 & F1 & N1 & G1). exists K1. split; [exact F1|]. intros u E slot c S.
    destruct (firstMatch c1 d) as [i|]; [|discriminate]. destruct slot as [|[|[|[|]]]]; try discriminate. eauto.
  - destruct (one 1 c1 eq_refl K) as (K1 & F1 & N1 & G1). destruct (one 2 c2 eq_refl K1) as (K2 & F2 & N2 & G2).
    destruct (firstMatch c1 d) as [i|e]; cbn [bind] in *.
    + exists K2. split; [eapply follows_bind; eassumption|]. intros u E slot c S.
      destruct (firstMatch c2 d) as [j|]; [|discriminate].
      destruct slot as [|[|[|[|]]]]; try discriminate; eauto.
    + exists K1. split; [now apply follows_bind_raise|discriminate].
  - destruct (one 1 c1 eq_refl K) as (K1 & F1 & N1 & G1). exists K1. split; [exact F1|]. intros u E slot c S.
    destruct (firstMatch c1 d) as [i|]; [|discriminate]. destruct slot as [|[|[|[|]]]]; try discriminate. eauto.
  - destruct (one 1 c1 eq_refl K) as (K1 & F1 & N1 & G1). destruct (one 2 c2 eq_refl K1) as (K2 & F2 & N2 & G2).
    destruct (firstMatch c1 d) as [i|e]; cbn [bind] in *.
    + exists K2. split; [eapply follows_bind; eassumption|]. intros u E slot c S.
      destruct (firstMatch c2 d) as [j|]; [|discriminate].
      destruct slot as [|[|[|[|]]]]; try discriminate; eauto.
    + exists K1. split; [now apply follows_bind_raise|discriminate].
  - destruct (one 1 c1 eq_refl K) as (K1 & F1 & N1 & G1). destruct (one 2 c2 eq_refl K1) as (K2 & F2 & N2 & G2).
    destruct (one 3 c3 eq_refl K2) as (K3 & F3 & N3 & G3).
    destruct (firstMatch c1 d) as [i|e]; cbn [bind] in *; [|exists K1; split; [now apply follows_bind_raise|discriminate]].
    destruct (firstMatch c2 d) as [j|e]; cbn [bind] in *.
    2:{ exists K2. split; [|discriminate]. eapply follows_bind; [exact F1|]. now apply follows_bind_raise. }
    exists K3. split; [eapply follows_bind; [exact F1|]; eapply follows_bind; eassumption|]. intros u E slot c S.
    destruct (firstMatch c3 d) as [k|]; [|discriminate].
    destruct slot as [|[|[|[|]]]]; try discriminate; eauto.
  - destruct (one 1 c1 eq_refl K) as (K1 & F1 & N1 & G1). destruct (one 2 c2 eq_refl K1) as (K2 & F2 & N2 & G2).
    destruct (one 3 c3 eq_refl K2) as (K3 & F3 & N3 & G3).
    destruct (firstMatch c1 d) as [i|e]; cbn [bind] in *; [|exists K1; split; [now apply follows_bind_raise|discriminate]].
    destruct (firstMatch c2 d) as [j|e]; cbn [bind] in *.
    2:{ exists K2. split; [|discriminate]. eapply follows_bind; [exact F1|]. now apply follows_bind_raise. }
    exists K3. split; [eapply follows_bind; [exact F1|]; eapply follows_bind; eassumption|]. intros u E slot c S.
    destruct (firstMatch c3 d) as [k|]; [|discriminate].
    destruct slot as [|[|[|[|]]]]; try discriminate; eauto.
  - destruct (one 2 c2 eq_refl K) as (K1 & F1 & N1 & G1). destruct (one 3 c3 eq_refl K1) as (K2 & F2 & N2 & G2).
    destruct (firstMatch c2 d) as [i|e]; cbn [bind] in *.
    + exists K2. split; [eapply follows_bind; eassumption|]. intros u E slot c S.
      destruct (firstMatch c3 d) as [j|]; [|discriminate].
      destruct slot as [|[|[|[|]]]]; try discriminate; eauto.
    + exists K1. split; [now apply follows_bind_raise|discriminate].
Qed.

(** After set_icols everything the parser reads is known. *)
Lemma after_set : forall f p d K A (k : unit -> prog A) r, agrees f p d ->
  (forall K', knows K' p -> ends f K' (k tt) r) ->
  ends f K (pbind (set_icols p d) k) (_ <- set_res (snd p) d ;; r).
Proof.
  intros f p d K A k r Ag Hk. destruct (set_icols_follows f p d K Ag) as (K' & F & N).
  destruct (set_res (snd p) d) as [[]|e] eqn:E; cbn.
  - destruct (Hk K' (N tt eq_refl)) as (K'' & F''). exists K''. eapply follows_bind; eassumption.
  - exists K'. now apply follows_bind_raise.
Qed.

Lemma pget_ends : forall f (K : known) id slot, K id slot -> ends f K (pget id slot) (Ok (f id slot)).
Proof. intros. exists K. constructor; [assumption|]. constructor. Qed.

Lemma icol_found_ends : forall f K p slot c d, agrees f p d -> knows K p -> slot_parser (snd p) slot = Some c ->
  ends f K (icol_found (fst p) slot) (Ok (found c d)).
Proof.
  intros f K p slot c d A N S. unfold icol_found.
  assert (E : ends f K (pbind (pget (fst p) slot) (fun i => Ret (Ok (0 <=? i)%Z)))
                (bind (Ok (f (fst p) slot)) (fun i => Ok (0 <=? i)%Z))).
  { apply ends_seq; [apply pget_ends; eapply N; exact S|]. intros; apply ends_ret. }
  cbn in E. rewrite (A _ _ S) in E. exact E.
Qed.

Lemma p_and_ends : forall f K a b x y, ends f K a (Ok x) -> ends f K b (Ok y) -> ends f K (p_and a b) (Ok (x && y)).
Proof.
  intros f K a b x y Ha Hb. unfold p_and. change (Ok (x && y)) with (bind (Ok x) (fun z : bool => Ok (z && y))).
  apply ends_seq; [assumption|]. intros z E. injection E as <-. destruct x; [assumption|apply ends_ret].
Qed.
Lemma p_or_ends : forall f K a b x y, ends f K a (Ok x) -> ends f K b (Ok y) -> ends f K (p_or a b) (Ok (x || y)).
Proof.
  intros f K a b x y Ha Hb. unfold p_or. change (Ok (x || y)) with (bind (Ok x) (fun z : bool => Ok (z || y))).
  apply ends_seq; [assumption|]. intros z E. injection E as <-. destruct x; [apply ends_ret|assumption].
Qed.

Lemma isMatch_ends : forall f K p d, agrees f p d ->
  ends f K (isMatch p d) (_ <- set_res (snd p) d ;; Ok (match_ok (snd p) d)).
Proof.
  intros f K p d A. unfold isMatch. apply after_set; [assumption|]. intros K' N.
  assert (I := fun slot c => icol_found_ends f K' p slot c d A N).
  destruct p as [id pr]. cbn [fst snd] in *.
  destruct pr as [c1|c1 c2|c1|c1 c2|c1 c2 c3|c1 c2 c3|c2 c3]; cbn [match_ok].
  - now apply I.
  - apply p_and_ends; now apply I.
  - now apply I.
  - apply p_or_ends; now apply I.
  - apply p_and_ends; [now apply I|]. apply p_or_ends; now apply I.
  - apply p_and_ends; [now apply I|]. apply p_or_ends; now apply I.
  - now apply I.
Qed.

Lemma located_ends : forall f K acos p slot c d, agrees f p d -> knows K p -> slot_parser (snd p) slot = Some c ->
  ends f K (located acos (fst p) slot c d) (the_column acos c d).
Proof.
  intros f K acos p slot c d A N S. unfold located, the_column.
  assert (E : ends f K (pbind (pget (fst p) slot) (fun i => Ret (getColumn acos c i d)))
                (bind (Ok (f (fst p) slot)) (fun i => getColumn acos c i d))).
  { apply ends_seq; [apply pget_ends; eapply N; exact S|]. intros; apply ends_ret. }
  cbn in E. rewrite (A _ _ S) in E. exact E.
Qed.

Lemma bind_set : forall A pr d (r : res A), (_ <- set_res pr d ;; _ <- set_res pr d ;; r) = (_ <- set_res pr d ;; r).
Proof. intros. destruct (set_res pr d); reflexivity. Qed.

Lemma getValue0_ends : forall f K energy energy' acos p d, agrees f p d ->
  (forall L, ends f L (energy d) (energy' d)) ->
  ends f K (getValue0 energy acos p d) (value_of0 energy' acos (snd p) d).
Proof.
  intros f K energy energy' acos p d A He. unfold getValue0.
  assert (R : value_of0 energy' acos (snd p) d
            = bind (_ <- set_res (snd p) d ;; Ok (match_ok (snd p) d))
                   (fun m => if negb m then Ok (dummy_column d)
                             else _ <- set_res (snd p) d ;; raw_value energy' acos (snd p) d)).
  { unfold value_of0. destruct (set_res (snd p) d) as [[]|e]; reflexivity. }
  rewrite R. apply ends_seq; [now apply isMatch_ends|]. intros m _.
  destruct m; cbn [negb]; [|apply ends_ret]. apply after_set; [assumption|]. intros K' N.
  assert (I := fun slot c => located_ends f K' acos p slot c d A N).
  destruct p as [id pr]. cbn [fst snd] in *.
  destruct pr as [c1|c1 c2|c1|c1 c2|c1 c2 c3|c1 c2 c3|c2 c3]; cbn [raw_value];
    repeat first [now apply I | apply ends_seq; [first [now apply I|apply He]|intros ? _] | apply ends_ret].
Qed.

Lemma raw_value_simple : forall energy acos pr d, set_res pr d = Ok tt -> match_ok pr d = true ->
  value_of0 energy acos pr d = raw_value energy acos pr d.
Proof. intros energy acos pr d S M. unfold value_of0. now rewrite S, M. Qed.

Lemma error_frame : forall f K p d (body : prog column) (body' : res column), agrees f p d ->
  (match_ok (snd p) d = true -> set_res (snd p) d = Ok tt -> forall K', knows K' p -> ends f K' body body') ->
  ends f K (m <~ isMatch p d ;;
            if negb m then Ret (Ok (dummy_column d))
            else _ <~ set_icols p d ;; col <~ body ;; Ret (Ok (absOrNone col)))
    (_ <- set_res (snd p) d ;;
     if negb (match_ok (snd p) d) then Ok (dummy_column d) else col <- body' ;; Ok (absOrNone col)).
Proof.
  intros f K p d body body' A Hb.
  assert (R : (_ <- set_res (snd p) d ;;
     if negb (match_ok (snd p) d) then Ok (dummy_column d) else col <- body' ;; Ok (absOrNone col))
     = bind (_ <- set_res (snd p) d ;; Ok (match_ok (snd p) d))
            (fun m => if negb m then Ok (dummy_column d)
                      else _ <- set_res (snd p) d ;; col <- body' ;; Ok (absOrNone col))).
  { destruct (set_res (snd p) d) as [[]|e]; reflexivity. }
  rewrite R. apply ends_seq; [now apply isMatch_ends|]. intros m Em.
  destruct m; cbn [negb]; [|apply ends_ret].
  destruct (set_res (snd p) d) as [[]|e] eqn:ES; [|discriminate]. cbn in Em. injection Em as Em.
  rewrite <- ES. apply after_set; [assumption|]. intros K' N.
  apply ends_seq; [now apply Hb|]. intros; apply ends_ret.
Qed.

Lemma getError0_ends : forall f K energy energy' acos p d, agrees f p d ->
  (forall L, ends f L (energy d) (energy' d)) ->
  ends f K (getError0 energy acos p d) (error_of0 energy' acos (snd p) d).
Proof.
  intros f K energy energy' acos p d A He.
  assert (M : match_ok (snd p) d = true -> set_res (snd p) d = Ok tt ->
     forall L, ends f L (getValue0 energy acos p d) (raw_value energy' acos (snd p) d)).
  { intros E S L. rewrite <- (raw_value_simple energy' acos (snd p) d S E). now apply getValue0_ends. }
  assert (I := fun K' N slot c => located_ends f K' acos p slot c d A N).
  assert (E := fun body body' => error_frame f K p d body body' A).
  unfold getError0, error_of0.
  destruct (snd p) as [c1|c1 c2|c1|c1 c2|c1 c2 c3|c1 c2 c3|c2 c3].
  1: { apply ends_ret. }
  1-6: apply E; clear E; intros Em ES K' N; specialize (I K' N); specialize (M Em ES); cbn [raw_error].
  - apply ends_seq; [now apply I|]. intros err _. destruct (is_percent (c_unit err)); [|apply ends_ret].
    apply ends_seq; [apply M|]. intros; apply ends_ret.
  - apply ends_seq; [apply M|]. intros; apply ends_ret.
  - repeat first [apply ends_seq; [now apply I|intros ? _] | apply ends_ret].
  - repeat first [apply ends_seq; [now apply I|intros ? _] | apply ends_ret].
  - apply ends_seq; [now apply I|]. intros col2 _. apply ends_seq; [now apply I|]. intros col3 _.
    destruct (is_percent (c_unit col2) || is_percent (c_unit col3)); [|apply ends_ret].
    apply ends_seq; [apply M|]. intros; apply ends_ret.
  - apply ends_seq; [apply He|]. intros col1 _. apply ends_seq; [now apply I|]. intros; apply ends_ret.
Qed.

Lemma energyColumn_ends : forall f K acos d, ends f K (energyColumn acos d) (no_energy d).
Proof. intros. cbn. apply ends_ret. Qed.

Lemma getValue_ends : forall f K acos p d, agrees f p d -> ends f K (getValue acos p d) (value_of acos (snd p) d).
Proof. intros. apply getValue0_ends; [assumption|]. intros. apply energyColumn_ends. Qed.
Lemma getError_ends : forall f K acos p d, agrees f p d -> ends f K (getError acos p d) (error_of acos (snd p) d).
Proof. intros. apply getError0_ends; [assumption|]. intros. apply energyColumn_ends. Qed.

(** A store that agrees with one parser. *)
Definition ideal (p : parser) (d : table) : store :=
  fun _ slot => match slot_parser (snd p) slot with Some c => icol c d | None => (-1)%Z end.
Lemma ideal_agrees : forall p d, agrees (ideal p d) p d.
Proof. intros p d slot c S. unfold ideal. now rewrite S. Qed.

Lemma run_getValue : forall acos p d s, fst (run (getValue acos p d) s) = value_of acos (snd p) d.
Proof. intros. apply (ends_run (ideal p d)). apply getValue_ends, ideal_agrees. Qed.
Lemma run_getError : forall acos p d s, fst (run (getError acos p d) s) = error_of acos (snd p) d.
Proof. intros. apply (ends_run (ideal p d)). apply getError_ends, ideal_agrees. Qed.
Lemma run_isMatch : forall p d s,
  fst (run (isMatch p d) s) = (_ <- set_res (snd p) d ;; Ok (match_ok (snd p) d)).
Proof. intros. apply (ends_run (ideal p d)). apply isMatch_ends, ideal_agrees. Qed.
