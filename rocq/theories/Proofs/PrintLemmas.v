(** Lemmas about printed data sets and DATA sections. *)
From Coq Require Import String List Ascii NArith ZArith Bool Arith Reals Lia Lra.
From Coq Require Import Floats.SpecFloat.
From Verif.Model Require Import Py PyFloat Utilities Particle Reaction Field Section Columns Dataset Repr Print.
From Verif.Spec Require Import Text Exfor Names Doubles Printing CsvText.
From Verif.Proofs Require Import StrLemmas ReactionLemmas DataLemmas CsvLemmas RoundLemmas ReprLemmas NearestLemmas DigitLemmas AuthorLemmas.
Import ListNotations.
Local Open Scope string_scope.
Local Open Scope list_scope.
Local Open Scope nat_scope.

(** ** Numbers *)

Lemma float12_reads : forall x, double x -> to_12_digits x (float12 x).
Proof.
  intros x D. split; [|split; [|split]].
  - intros F. destruct x; try reflexivity. contradict F. exact I.
  - intros Z. destruct x as [s|s| |s m e]; try reflexivity. exfalso. rewrite abs_value in Z. pose proof (mag_pos m e).
    destruct s; lra.
  - intros F B. apply float12_close; assumption.
  - intros N (d & P & H). destruct x as [s|s| |s m e]; try contradiction. apply (float12_exact d); assumption.
Qed.

Lemma short_12 : forall n x, (n <= 12)%Z -> short_number n x -> float12 x = x.
Proof.
  intros n x Hn [[s ->]|(d & P & H & [Lo Hi])]; [reflexivity|].
  destruct x as [s|s| |s m e]; try reflexivity. apply (float12_exact d).
  - unfold digits_at_most in P. destruct (Z.lt_ge_cases n 0) as [L|L].
    + rewrite Z.pow_neg_r in P by exact L. lia.
    + apply Z.lt_le_trans with (1 := P). apply Z.pow_le_mono_r; lia.
  - exact H.
  - destruct (float_normal d _ H) as (m' & e' & E & M); [split; [exact Lo|]|].
    + apply Rlt_le_trans with (1 := Hi). apply p10_le. lia.
    + injection E as _ Em _. rewrite Em. exact M.
Qed.

(** ** Lines and words *)

Lemma between_app : forall a b, a <> [] -> b <> [] -> between [nl] (a ++ b) = between [nl] a ++ nl :: between [nl] b.
Proof.
  induction a as [|x [|y a] IH]; intros b A B; [contradiction| |].
  - destruct b as [|z b]; [contradiction|]. reflexivity.
  - cbn [app]. change (between [nl] (x :: y :: a ++ b)) with (x ++ [nl] ++ between [nl] ((y :: a) ++ b)).
    rewrite IH by (discriminate || exact B). change (between [nl] (x :: y :: a)) with (x ++ [nl] ++ between [nl] (y :: a)).
    rewrite <- !app_assoc. reflexivity.
Qed.

Lemma between_rows : forall {A} (f : A -> str) (b : str) rows,
  b ++ concat (map (fun row => f row ++ [nl] ++ b) rows) = between [nl] (map (fun row => b ++ f row) rows ++ [b]).
Proof.
  intros A f b rows. induction rows as [|r rows IH]; [cbn; apply app_nil_r|].
  cbn [map concat]. rewrite <- !app_assoc, IH. cbn [app].
  destruct (map (fun row => b ++ f row) rows ++ [b]) as [|z zs] eqn:E; [apply app_eq_nil in E; destruct E; discriminate|].
  cbn [between]. rewrite <- app_assoc. reflexivity.
Qed.

Lemma between_lines : forall {A} (f : A -> str) rows last,
  concat (map (fun row => f row ++ [nl]) rows) ++ last = between [nl] (map f rows ++ [last]).
Proof.
  intros A f rows last. induction rows as [|r rows IH]; [reflexivity|]. cbn [map concat app]. rewrite <- !app_assoc, IH.
  destruct (map f rows ++ [last]) as [|z zs] eqn:E; [apply app_eq_nil in E; destruct E; discriminate|]. reflexivity.
Qed.

Definition word (w : str) : Prop := w <> [] /\ Forall (fun c => ~ white c) w.

Lemma blank_repeat : forall n, blank (repeat sp n).
Proof. intros n. apply Forall_forall. intros x H. apply repeat_spec in H. subst. unfold white. cbn. tauto. Qed.

Lemma padded_words : forall n ws b, blank b -> Forall (fun w => word w /\ length w < n) ws ->
  words (b ++ concat (map (ljust n) ws)) ws.
Proof.
  intros n ws. induction ws as [|w ws IH]; intros b B F; cbn [map concat].
  - rewrite app_nil_r. apply Exfor.words_nil, B.
  - inversion F as [|? ? [[N W] L] F']; subst. unfold ljust at 1.
    destruct (n - length w) as [|k] eqn:K; [lia|]. cbn [repeat]. rewrite <- app_assoc. cbn [app].
    apply Exfor.words_cons; try assumption; [unfold white; cbn; tauto|]. apply IH; [apply blank_repeat|exact F'].
Qed.

Lemma number_word : forall w, w <> [] -> Forall number_char w -> word w.
Proof.
  intros w N F. split; [exact N|]. eapply Forall_impl; [|exact F]. intros c I W. unfold number_char in I. unfold white in W.
  cbn in I. repeat (destruct I as [<-|I]; [cbn in W; intuition discriminate|]). contradiction.
Qed.
Lemma repr_word : forall x, double x -> word (repr_float x).
Proof.
  intros x D. apply number_word; [|apply repr_number]. intros E. pose proof (repr_reads x D) as R. rewrite E in R. discriminate.
Qed.

Lemma word_one_line : forall w, word w -> one_line w.
Proof. intros w [_ W] I. rewrite Forall_forall in W. apply (W _ I). unfold white. cbn. tauto. Qed.
Lemma one_line_app : forall a b, one_line a -> one_line b -> one_line (a ++ b).
Proof. intros a b A B I. apply in_app_or in I. destruct I; [exact (A H)|exact (B H)]. Qed.
Lemma one_line_pad : forall n w, one_line w -> one_line (ljust n w).
Proof. intros n w W. apply one_line_app; [exact W|]. intros I. apply repeat_spec in I. discriminate. Qed.
Lemma one_line_concat : forall l, Forall one_line l -> one_line (concat l).
Proof. induction 1; [intros []|]. cbn [concat]. apply one_line_app; assumption. Qed.
Lemma one_line_lit : forall s, forallb (fun c => negb (Ascii.eqb c nl)) s = true -> one_line s.
Proof. intros s H I. rewrite forallb_forall in H. specialize (H _ I). discriminate. Qed.
Ltac plain := apply one_line_lit; reflexivity.

(** ** Data sets *)

Definition good_cell (c : dcell) : Prop :=
  match c with VFloat x => double x /\ length (cell_str c) < 14 | _ => True end.
Lemma cell_word : forall c, good_cell c -> word (cell_str c) /\ length (cell_str c) < 14.
Proof.
  intros [|x|] G.
  - split; [|cbn; lia]. split; [discriminate|]. cbn. repeat constructor; unfold white; cbn; intuition discriminate.
  - destruct G as [D L]. split; [|exact L]. cbn [cell_str]. apply repr_word, float12_double, D.
  - split; [|cbn; lia]. split; [discriminate|]. cbn. repeat constructor; unfold white; cbn; intuition discriminate.
Qed.

Definition row_line (row : list dcell) : str := lit "        " ++ concat (map (ljust 14) (map cell_str row)).
Lemma row_words : forall row, Forall good_cell row -> words (row_line row) (map cell_str row).
Proof.
  intros row G. apply padded_words; [apply (blank_repeat 8)|]. apply Forall_map. eapply Forall_impl; [|exact G].
  intros c H. apply cell_word, H.
Qed.
Lemma row_one_line : forall row, Forall good_cell row -> one_line (row_line row).
Proof.
  intros row G. apply one_line_app; [plain|]. apply one_line_concat. rewrite map_map. apply Forall_map.
  eapply Forall_impl; [|exact G]. intros c H. apply one_line_pad, word_one_line, cell_word, H.
Qed.

Definition label_line (t : table) : str := lit "#        " ++ concat (map (ljust 14) (t_labels t)).
Definition unit_line (t : table) : str := lit "#        " ++ concat (map (fun u => ljust 14 (unit_str u)) (t_units t)).

Lemma table_text : forall t, table_str t =
  nl :: between [nl] ([label_line t; unit_line t] ++ map row_line (t_data t) ++ [lit "        "]).
Proof.
  intros t. unfold table_str.
  assert (E : map row_line (t_data t) = map (fun row => lit "        " ++ concat (map (fun c => ljust 14 (cell_str c)) row)) (t_data t)).
  { apply map_ext. intros row. unfold row_line. rewrite map_map. reflexivity. }
  rewrite E. rewrite between_app by (discriminate || (intros H; apply app_eq_nil in H; destruct H; discriminate)).
  rewrite <- between_rows. cbn [between]. unfold label_line, unit_line. rewrite <- !app_assoc. reflexivity.
Qed.

Lemma one_line_join : forall sep l, one_line sep -> Forall one_line l -> one_line (join sep l).
Proof.
  intros sep l S F. induction F as [|x l X F IH]; [intros []|]. destruct l as [|y l]; [exact X|].
  change (join sep (x :: y :: l)) with (x ++ sep ++ join sep (y :: l)). repeat (apply one_line_app; [assumption|]). exact IH.
Qed.

Lemma Ok_inj : forall (A : Type) (a b : A), Ok a = Ok b -> a = b.
Proof. intros A a b H. congruence. Qed.

Lemma base_header_text : forall nm d h, X4DataSet_strHeader nm d = Ok h -> header_ok nm d ->
  exists ls, text_lines h ls /\ Forall comment_line ls.
Proof.
  intros nm d h H (M & R & Mo & _). unfold X4DataSet_strHeader in H.
  apply bind_ok in H. destruct H as (r & Hr & H). apply bind_ok in H. destruct H as (ms & Hm & H). apply Ok_inj in H. subst h.
  assert (Ro : one_line r).
  { destruct (ds_reaction d) as [[m t]|] eqn:E; [|discriminate]. apply bind_ok in Hr. destruct Hr as (s & Hs & Hr). injection Hr as <-.
    destruct (R m t s eq_refl Hs) as [A B]. apply (one_line_app s ([sp] ++ tree_str t)); [exact A|]. apply (one_line_app [sp] (tree_str t)); [plain|exact B]. }
  set (ml := map (fun l => lit "#  " ++ l) (meta_lines (ds_meta d))).
  assert (Ml : Forall one_line ml /\ Forall comment_line ml).
  { unfold meta_texts in M. cbn [app] in M. inversion M as [|? ? M1 N1]; subst. inversion N1 as [|? ? M2 N2]; subst.
    inversion N2 as [|? ? M3 N3]; subst. inversion N3 as [|? ? M4 N4]; subst. inversion N4 as [|? ? M5 N5]; subst.
    unfold ml, meta_lines. cbn [map]. split.
    - repeat constructor; (apply one_line_app; [plain|]); (apply one_line_app; [plain|]); try assumption.
      apply one_line_join; [plain|assumption].
    - repeat constructor; eexists; reflexivity. }
  destruct Ml as [Ml Mc].
  assert (Nm : ml <> []) by discriminate.
  set (rl := lit "#  Reaction:  " ++ r).
  assert (Tail : exists ls, text_lines (rl ++ ms) ls /\ Forall comment_line ls).
  { destruct (ds_monitor d) as [l|] eqn:E.
    - apply bind_ok in Hm. destruct Hm as (xs & Hx & Hm). injection Hm as <-.
      exists [rl; lit "#  Monitor(s): " ++ join [sp] xs]. split.
      + split; [discriminate|]. split.
        * constructor; [apply one_line_app; [plain|exact Ro]|]. constructor; [|constructor].
          apply one_line_app; [plain|]. apply one_line_join; [plain|].
          apply map_res_Forall2 in Hx. apply Forall_forall. intros s I.
          assert (G : forall (xs : list str) l', Forall2 (fun x y => monitor_str nm x = Ok y) l' xs -> In s xs ->
                    exists x, In x l' /\ monitor_str nm x = Ok s).
          { clear. intros xs l' F. induction F as [|x y l' xs A F IH]; intros I; [contradiction|].
            destruct I as [->|I]; [exists x; split; [left; reflexivity|exact A]|].
            destruct (IH I) as (z & Z1 & Z2). exists z. split; [right; exact Z1|exact Z2]. }
          destruct (G _ _ Hx I) as (x & Ix & Ex). exact (Mo l x s eq_refl Ix Ex).
        * reflexivity.
      + repeat constructor; eexists; reflexivity.
    - injection Hm as <-. exists [rl]. rewrite app_nil_r. split.
      + split; [discriminate|]. split; [|reflexivity]. constructor; [apply one_line_app; [plain|exact Ro]|constructor].
      + repeat constructor; eexists; reflexivity. }
  destruct Tail as (ls & (Nl & Ol & El) & Cl). exists (ml ++ ls). split.
  - split; [intros X; apply app_eq_nil in X; destruct X; contradiction|]. split; [apply Forall_app; split; assumption|].
    change [newline] with [nl]. rewrite between_app by assumption. unfold newline in El. change (ascii_of_N 10) with nl in El.
    rewrite <- El. unfold xmgraceHeader. fold ml. rewrite between_join. unfold rl. clearbody ml. rewrite <- !app_assoc. reflexivity.
  - apply Forall_app. split; assumption.
Qed.

Lemma header_text : forall nm d h, strHeader nm d = Ok h -> header_ok nm d ->
  exists ls, text_lines h ls /\ Forall comment_line ls.
Proof.
  intros nm d h H O. unfold strHeader in H. apply bind_ok in H. destruct H as (out & B & H).
  destruct (base_header_text nm d out B O) as (ls & (Nl & Ol & El) & Cl).
  assert (S : out = h \/ exists f, ds_frame d = Some f /\ h = out ++ [nl] ++ lit "#  Frame:     " ++ f).
  { assert (G : (f <- of_option AttributeError (ds_frame d) ;; Ok (out ++ [nl] ++ lit "#  Frame:     " ++ f)) = Ok h ->
                exists f, ds_frame d = Some f /\ h = out ++ [nl] ++ lit "#  Frame:     " ++ f).
    { intros G. apply bind_ok in G. destruct G as (f & F & G). apply Ok_inj in G. subst h. exists f. split; [|reflexivity].
      destruct (ds_frame d); [apply Ok_inj in F; subst; reflexivity|discriminate]. }
    destruct (ds_class_of d); try (left; apply Ok_inj; exact H); right; apply G, H. }
  destruct S as [<-|(f & F & ->)]; [exists ls; repeat split; assumption|].
  destruct O as (_ & _ & _ & O). specialize (O f F). exists (ls ++ [lit "#  Frame:     " ++ f]). split; [split; [|split]|].
  - intros X. apply app_eq_nil in X. destruct X; discriminate.
  - apply Forall_app. split; [exact Ol|]. constructor; [|constructor]. apply one_line_app; [plain|exact O].
  - change [newline] with [nl]. rewrite between_app by (assumption || discriminate). change [newline] with [nl] in El. rewrite <- El. reflexivity.
  - apply Forall_app. split; [exact Cl|]. constructor; [|constructor]. eexists. reflexivity.
Qed.

Lemma dataset_text : forall nm d text, dataset_str nm d = Ok text -> header_ok nm d -> table_ok (ds_table d) ->
  Forall (Forall good_cell) (t_data (ds_table d)) ->
  exists comments rows last, text_lines text (comments ++ rows ++ [last]) /\ Forall comment_line comments /\ blank last /\
    Forall2 (fun row line => words line (map cell_str row)) (t_data (ds_table d)) rows.
Proof.
  intros nm d text H Hd [Tl Tu] G. unfold dataset_str in H. apply bind_ok in H. destruct H as (h & Hh & H). apply Ok_inj in H. subst text.
  destruct (header_text nm d h Hh Hd) as (ls & (Nl & Ol & El) & Cl). set (t := ds_table d) in *.
  exists (ls ++ [label_line t; unit_line t]), (map row_line (t_data t)), (lit "        "). split; [|split; [|split]].
  - split; [intros X; apply app_eq_nil in X; destruct X as [X _]; apply app_eq_nil in X; destruct X; discriminate|]. split.
    + apply Forall_app. split; [apply Forall_app; split; [exact Ol|]|apply Forall_app; split].
      * constructor; [|constructor; [|constructor]].
        -- apply one_line_app; [plain|]. apply one_line_concat, Forall_map. eapply Forall_impl; [|exact Tl]. intros a. apply one_line_pad.
        -- apply one_line_app; [plain|]. apply one_line_concat, Forall_map, Forall_forall. intros [u|] I; apply one_line_pad; [exact (Tu u I)|plain].
      * apply Forall_map. eapply Forall_impl; [|exact G]. intros row. apply row_one_line.
      * constructor; [plain|constructor].
    + rewrite table_text. rewrite <- app_assoc. change [newline] with [nl].
      rewrite (between_app ls) by (exact Nl || discriminate). rewrite El. reflexivity.
  - apply Forall_app. split; [exact Cl|]. repeat constructor; eexists; reflexivity.
  - apply (blank_repeat 8).
  - revert G. clear. induction (t_data t) as [|row rows IH]; intros G; [constructor|]. inversion G; subst.
    constructor; [apply row_words; assumption|apply IH; assumption].
Qed.

Lemma cell_reads : forall c, good_cell c -> cell_read c (cell_str c).
Proof.
  intros [|x|] G; [reflexivity| |vm_compute; reflexivity]. destruct G as [D _]. cbn [cell_read cell_str].
  exists (float12 x). split; [apply repr_reads, float12_double, D|apply float12_reads, D].
Qed.

Definition cells_good (t : table) : Prop :=
  forall row x, In row (t_data t) -> In (VFloat x) row -> double x /\ length (cell_str (VFloat x)) < 14.
Lemma cells_Forall : forall t, cells_good t -> Forall (Forall good_cell) (t_data t).
Proof.
  intros t G. apply Forall_forall. intros row I. apply Forall_forall. intros [|x|] J; [exact Logic.I| |exact Logic.I]. exact (G row x I J).
Qed.

Lemma Forall2_map_r : forall {A B} (P : A -> B -> Prop) (f : A -> B) l, Forall (fun x => P x (f x)) l -> Forall2 P l (map f l).
Proof. induction 1; constructor; assumption. Qed.
Lemma Forall2_weaken_in : forall {A B} (P Q : A -> B -> Prop) l m, Forall2 P l m -> (forall x y, In x l -> P x y -> Q x y) -> Forall2 Q l m.
Proof.
  induction 1 as [|x y l m H F IH]; intros W; constructor; [apply W; [left; reflexivity|exact H]|].
  apply IH. intros a b I. apply W. right. exact I.
Qed.

Lemma dataset_prints : forall nm d text, dataset_str nm d = Ok text -> header_ok nm d -> table_ok (ds_table d) ->
  cells_good (ds_table d) ->
  exists comments rows last, text_lines text (comments ++ rows ++ [last]) /\ Forall comment_line comments /\ blank last /\
    Forall2 (fun row line => exists ws, words line ws /\ Forall2 cell_read row ws) (t_data (ds_table d)) rows.
Proof.
  intros nm d text H Hd T G. apply cells_Forall in G.
  destruct (dataset_text nm d text H Hd T G) as (cs & rows & last & A & B & C & F). exists cs, rows, last.
  split; [exact A|]. split; [exact B|]. split; [exact C|]. eapply Forall2_weaken_in; [exact F|].
  intros row line I W. exists (map cell_str row). split; [exact W|]. apply Forall2_map_r.
  rewrite Forall_forall in G. specialize (G row I). eapply Forall_impl; [|exact G]. intros c. apply cell_reads.
Qed.

Lemma short_double : forall n x, short_number n x -> double x.
Proof. intros n x [[s ->]|(d & _ & <- & _)]; [exact I|apply dec_double]. Qed.

Lemma short_width : forall n x, 1 <= n <= 15 -> short_number (Z.of_nat n) x -> length (repr_float x) <= n + 6.
Proof.
  intros n x Hn [[s ->]|(d & P & H & B)]; [destruct s; cbn; lia|]. apply (repr_width n d x Hn P H B).
Qed.

Lemma dataset_prints_short : forall nm d text, dataset_str nm d = Ok text -> header_ok nm d -> table_ok (ds_table d) ->
  (forall row x, In row (t_data (ds_table d)) -> In (VFloat x) row -> short_number 7 x) ->
  exists comments rows last, text_lines text (comments ++ rows ++ [last]) /\ Forall comment_line comments /\ blank last /\
    Forall2 (fun row line => exists ws, words line ws /\
               Forall2 cell_read_exactly row ws) (t_data (ds_table d)) rows.
Proof.
  intros nm d text H Hd T S.
  assert (E : forall row x, In row (t_data (ds_table d)) -> In (VFloat x) row -> cell_str (VFloat x) = repr_float x).
  { intros row x I J. cbn [cell_str]. rewrite (short_12 7 x); [reflexivity|lia|exact (S row x I J)]. }
  assert (G : cells_good (ds_table d)).
  { intros row x I J. split; [exact (short_double 7 x (S row x I J))|]. rewrite (E row x I J).
    pose proof (short_width 7 x ltac:(lia) (S row x I J)). lia. }
  apply cells_Forall in G.
  destruct (dataset_text nm d text H Hd T G) as (cs & rows & last & A & B & C & F). exists cs, rows, last.
  split; [exact A|]. split; [exact B|]. split; [exact C|]. eapply Forall2_weaken_in; [exact F|].
  intros row line I W. exists (map cell_str row). split; [exact W|]. apply Forall2_map_r. apply Forall_forall.
  intros [|x|] J; [reflexivity| |vm_compute; reflexivity]. rewrite (E row x I J). apply repr_reads, (short_double 7), (S row x I J).
Qed.

(** ** DATA sections *)

Lemma number_word11 : forall x, (forall y, x = Some y -> double y /\ length (repr_float y) < 11) ->
  word (number_str x) /\ length (number_str x) < 11 /\ number_read x (number_str x).
Proof.
  intros [x|] H.
  - destruct (H x eq_refl) as [D L]. split; [apply repr_word, D|]. split; [exact L|apply repr_reads, D].
  - split; [|split; [cbn; lia|reflexivity]]. split; [discriminate|]. cbn. repeat constructor; unfold white; cbn; intuition discriminate.
Qed.

Lemma one_line_digits : forall s, (forall c, In c s -> In c (lit "-0123456789")) -> one_line s.
Proof. intros s H I. specialize (H _ I). cbn in H. repeat destruct H as [H|H]; try discriminate. contradiction. Qed.

Lemma n_to_str_chars : forall n c, In c (n_to_str n) -> In c (lit "-0123456789").
Proof.
  intros n c H. destruct (IntLemmas.n_to_str_spec n) as (ds & E & D & _). rewrite E in H. unfold digits_text in H. apply in_map_iff in H.
  destruct H as (x & <- & I). unfold is_digits in D. rewrite Forall_forall in D. specialize (D x I).
  apply NumLemmas.digit_cases in D. cbn in D. repeat (destruct D as [<-|D]; [cbn; tauto|]). contradiction.
Qed.
Lemma z_to_str_line : forall z, one_line (z_to_str z).
Proof.
  intros z. apply one_line_digits. intros c H. unfold z_to_str in H. destruct z; cbn [app] in H.
  - apply n_to_str_chars in H. exact H.
  - apply n_to_str_chars in H. exact H.
  - destruct H as [<-|H]; [cbn; tauto|]. apply n_to_str_chars in H. exact H.
Qed.

Lemma section_tag : forall tag lines d, X4DataSection tag lines = Ok d -> d_tag d = tag.
Proof.
  intros tag lines d H. unfold X4DataSection in H.
  repeat match type of H with
         | bind ?m ?k = Ok _ => apply bind_ok in H; destruct H as (? & _ & H)
         | context [let '(_, _) := ?x in _] => destruct x
         | (let x := _ in _) = _ => cbv zeta in H
         end.
  apply Ok_inj in H. subst d. reflexivity.
Qed.

Definition num_line (row : list (option float)) : str := concat (map (fun x => ljust 11 (number_str x)) row).
Lemma section_text : forall d, data_str d = between [nl]
  ((ljust 11 (d_tag d) ++ rjust 11 (z_to_str (d_numcols d)) ++ rjust 11 (z_to_str (d_numrows d)))
   :: concat (map (ljust 11) (d_labels d)) :: concat (map (ljust 11) (d_units d))
   :: map num_line (d_data d) ++ [ljust 11 (lit "END" ++ d_tag d) ++ rjust 11 (z_to_str (d_numrows d + 2))]).
Proof.
  intros d. unfold data_str. set (last := ljust 11 (lit "END" ++ d_tag d) ++ rjust 11 (z_to_str (d_numrows d + 2))).
  pose proof (between_lines num_line (d_data d) last) as B. unfold num_line in B at 1. rewrite B.
  set (tail := map num_line (d_data d) ++ [last]). destruct tail as [|z zs] eqn:E.
  - apply app_eq_nil in E. destruct E. discriminate.
  - cbn [between]. rewrite <- !app_assoc. reflexivity.
Qed.

Lemma section_prints : forall tag lines d, X4DataSection tag lines = Ok d -> one_line tag ->
  Forall one_line (d_labels d) -> Forall one_line (d_units d) ->
  (forall row x, In row (d_data d) -> In (Some x) row -> length (repr_float x) < 11) ->
  exists first labels units rows last,
    text_lines (data_str d) (first :: labels :: units :: rows ++ [last]) /\
    Forall2 (fun row line => exists ws, words line ws /\ Forall2 number_read row ws) (d_data d) rows.
Proof.
  intros tag lines d H Ht Hl Hu W. pose proof (section_tag _ _ _ H) as Tg. rewrite <- Tg in Ht.
  pose proof (section_doubles _ _ _ H) as D.
  assert (G : forall row x, In row (d_data d) -> In x row ->
     word (number_str x) /\ length (number_str x) < 11 /\ number_read x (number_str x)).
  { intros row x I J. apply number_word11. intros y ->. split; [|exact (W row y I J)].
    rewrite Forall_forall in D. specialize (D row I). rewrite Forall_forall in D. exact (D _ J). }
  do 5 eexists. split.
  - split; [|split; [|apply section_text]]; [discriminate|].
    assert (R : forall z, one_line (rjust 11 (z_to_str z))).
    { intros z. apply one_line_app; [intros I; apply repeat_spec in I; discriminate|apply z_to_str_line]. }
    constructor; [apply one_line_app; [apply one_line_pad, Ht|apply one_line_app; apply R]|].
    constructor; [apply one_line_concat, Forall_map; eapply Forall_impl; [|exact Hl]; intros a; apply one_line_pad|].
    constructor; [apply one_line_concat, Forall_map; eapply Forall_impl; [|exact Hu]; intros a; apply one_line_pad|].
    apply Forall_app. split.
    + apply Forall_map, Forall_forall. intros row I. apply one_line_concat, Forall_map, Forall_forall. intros x J.
      apply one_line_pad, word_one_line. exact (proj1 (G row x I J)).
    + constructor; [|constructor]. apply one_line_app; [apply one_line_pad, one_line_app; [plain|exact Ht]|apply R].
  - apply Forall2_map_r, Forall_forall. intros row I. exists (map number_str row). split.
    + unfold num_line. rewrite <- (map_map number_str (ljust 11)). apply (padded_words 11 _ []); [constructor|].
      apply Forall_map, Forall_forall. intros x J. destruct (G row x I J) as (A & B & _). split; assumption.
    + apply Forall2_map_r, Forall_forall. intros x J. exact (proj2 (proj2 (G row x I J))).
Qed.

Lemma section_prints_short : forall tag lines d, X4DataSection tag lines = Ok d -> one_line tag ->
  Forall one_line (d_labels d) -> Forall one_line (d_units d) ->
  (forall row x, In row (d_data d) -> In (Some x) row -> short_number 4 x) ->
  exists first labels units rows last,
    text_lines (data_str d) (first :: labels :: units :: rows ++ [last]) /\
    Forall2 (fun row line => exists ws, words line ws /\ Forall2 number_read row ws) (d_data d) rows.
Proof.
  intros tag lines d H Ht Hl Hu S. apply (section_prints tag lines); try assumption.
  intros row x I J. pose proof (short_width 4 x ltac:(lia) (S row x I J)). lia.
Qed.
