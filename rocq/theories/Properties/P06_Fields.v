(** Properties C28-C32 and C60: BIB sections and their fields. *)
From Coq Require Import String List Ascii NArith ZArith Bool Arith.
From Verif.Model Require Import Py Dicts Particle Reaction Field Section.
From Verif.Spec Require Import Text Exfor.
From Verif.Proofs Require Import StrLemmas FieldLemmas BibLemmas MonitorLemmas.
Import ListNotations.
Local Open Scope string_scope.
Local Open Scope list_scope.
Local Open Scope nat_scope.

(** Grammars that accept nothing, for the examples. *)
Definition no_grammar : grammars :=
  mkGrammars (fun _ => None) (fun _ => None) (fun _ => None) (fun _ => None) (fun _ => None)
             (fun _ => None) (fun _ => None) (fun _ => None) (fun _ => None) (fun _ => None) (fun _ => None).
Definition plain_env : env := mkEnv no_grammar [] [] [] 10.

(** C28.  The fields, put together, are the lines that are not BIB or ENDBIB lines; every field
    after the first begins with the only keyword line it has. *)
Theorem C28_bib_chunkify_keeps_lines : forall lines, exists first rest kept,
  bib_chunkify lines = first :: rest /\ omits frame_line lines kept /\ concat (first :: rest) = kept /\
  (kept = [] -> first = [] /\ rest = []) /\ (kept <> [] -> one_field first) /\ Forall keyword_field rest.
Proof. exact bib_chunkify_spec. Qed.
Print Assumptions C28_bib_chunkify_keeps_lines.

(** And this is the only way to cut the section. *)
Theorem C28_bib_chunkify_unique : forall lines first rest, one_field first -> Forall keyword_field rest ->
  omits frame_line lines (concat (first :: rest)) -> bib_chunkify lines = first :: rest.
Proof. exact bib_chunkify_fields. Qed.
Print Assumptions C28_bib_chunkify_unique.

Definition small_bib : list str := map lit
  ["BIB                  2          4";
   "COMMENT    Corrected for";
   "          1background";
   "           and dead time";
   "STATUS     Final";
   "ENDBIB               4"].

Example C28_example :
  bib_chunkify small_bib =
    [map lit ["COMMENT    Corrected for"; "          1background"; "           and dead time"]; [lit "STATUS     Final"]].
Proof. vm_compute. reflexivity. Qed.

(** C29.  With distinct keywords every field is found under its keyword, complete; an AUTHOR field
    that says there is no author is the exception. *)
Theorem C29_bib_keeps_fields : forall e lines b kws, X4BibSection e lines = Ok b ->
  Forall2 field_keyword kws (bib_chunkify lines) -> NoDup kws ->
  forall kw fld, In fld (bib_chunkify lines) -> field_keyword kw fld ->
  exists f, dget tag_eqb (key_of kw) (b_dict b) = Some (Some f) /\
    (X4PlainField fld = Ok (field_plain f) \/ (kw = lit "AUTHOR" /\ author_missing fld)).
Proof. exact bib_distinct. Qed.
Print Assumptions C29_bib_keeps_fields.

Example C29_example : exists b,
  X4BibSection plain_env small_bib = Ok b /\
  bib_field b "COMMENT" = Some (Some (FPlain (mkPlain (Some (lit "COMMENT"))
     [(" "%char, [lit "Corrected for"]); ("1"%char, map lit ["background"; "and dead time"])]))).
Proof. eexists. split; vm_compute; reflexivity. Qed.

Lemma C29_example_hypotheses :
  Forall2 field_keyword [lit "COMMENT"; lit "STATUS"] (bib_chunkify small_bib) /\ NoDup [lit "COMMENT"; lit "STATUS"].
Proof.
  split.
  - rewrite C28_example.
    constructor; [|constructor; [|constructor]]; do 2 eexists; (split; [reflexivity|]); apply strip_iff; vm_compute; reflexivity.
  - repeat constructor; cbn; intuition discriminate.
Qed.

(** In general the last field with the keyword wins ... *)
Theorem C29_last_keyword_wins : forall e lines b, X4BibSection e lines = Ok b ->
  forall kw x, dget tag_eqb (key_of kw) (b_dict b) = Some x <->
    exists fld f, last_such (field_keyword kw) (bib_chunkify lines) fld /\
                  make_field e (key_of kw) fld = Ok f /\ x = Some f.
Proof. exact bib_lookup. Qed.
Print Assumptions C29_last_keyword_wins.

(** ... so that the text of an earlier one is lost, and repr prints the last one twice; ... *)
Theorem C29_repeated_keyword_refuted : exists lines, forall e, exists b s,
  X4BibSection e lines = Ok b /\ bib_repr b = Ok s /\
  (exists l, In l lines /\ mentions l (lit "first")) /\
  (forall k f p texts t, dget tag_eqb k (b_dict b) = Some (Some f) ->
     dget Ascii.eqb p (f_dict (field_plain f)) = Some texts -> In t texts -> ~ mentions t (lit "first")) /\
  mentions s (lit "second" ++ [nl] ++ lit "COMMENT    second").
Proof.
  exists (map lit ["BIB"; "COMMENT    first"; "COMMENT    second"; "ENDBIB"]). intro e.
  exists (mkBib [(Some (lit "COMMENT"), Some (FPlain (mkPlain (Some (lit "COMMENT")) [(" "%char, [lit "second"])])))]
                [Some (lit "COMMENT"); Some (lit "COMMENT")]).
  eexists. split; [vm_compute; reflexivity|]. split; [vm_compute; reflexivity|]. split; [|split].
  - exists (lit "COMMENT    first"). split; [right; now left|]. exists (lit "COMMENT    "), []. reflexivity.
  - intros k f p texts t D G I M.
    assert (F : f = FPlain (mkPlain (Some (lit "COMMENT")) [(" "%char, [lit "second"])])).
    { unfold b_dict, dget in D. destruct (tag_eqb k _); [congruence|discriminate]. }
    subst f. assert (T : texts = [lit "second"]).
    { unfold field_plain, f_dict, dget in G. destruct (Ascii.eqb p _); [congruence|discriminate]. }
    subst texts. destruct I as [I|[]]. subst t.
    destruct M as (a & b & M).
    assert (I : In "f"%char (lit "second")) by (rewrite M; apply in_or_app; right; now left).
    cbn in I. repeat (destruct I as [I|I]; [discriminate|]). destruct I.
  - exists (lit "BIB                  1          1" ++ [nl] ++ lit "COMMENT    "), ([nl] ++ lit "ENDBIB               1"). vm_compute. reflexivity.
Qed.
Print Assumptions C29_repeated_keyword_refuted.

(** ... and a section without fields is refused with an IndexError. *)
Theorem C29_empty_section_refuted : forall e lines, Forall frame_line lines -> X4BibSection e lines = Raise IndexError.
Proof. exact bib_empty. Qed.
Print Assumptions C29_empty_section_refuted.

(** C30.  Every line goes, as its columns 12-66 without trailing blanks, to the pointer in force. *)
Theorem C30_plain_field_keeps_lines : forall lines f, X4PlainField lines = Ok f ->
  (exists l ls tag, lines = l :: ls /\ f_tag f = Some tag /\ has_keyword l tag) /\
  (exists texts, Forall2 right_trimmed (map (columns 11 66) lines) texts /\
     forall p, dget Ascii.eqb p (f_dict f)
       = match marked p (marks " " lines) texts with [] => None | l => Some l end) /\
  plain_total_len f = length lines.
Proof. exact plain_field_spec. Qed.
Print Assumptions C30_plain_field_keeps_lines.

(** Every non-empty list of lines is accepted. *)
Theorem C30_plain_field_total : forall lines, lines <> [] -> exists f, X4PlainField lines = Ok f.
Proof. exact plain_field_total. Qed.
Print Assumptions C30_plain_field_total.

Example C30_example :
  X4PlainField (map lit ["COMMENT   2Corrected for"; "          1background"; "           and dead time"; "          2efficiency  "])
  = Ok (mkPlain (Some (lit "COMMENT"))
        [("2"%char, map lit ["Corrected for"; "efficiency"]); ("1"%char, map lit ["background"; "and dead time"])]).
Proof. vm_compute. reflexivity. Qed.

(** C31.  Printing a field and reading it back gives the same tag and the same text for every
    pointer, provided that no pointer sorts before a blank one. *)
Theorem C31_field_roundtrip : forall lines f, X4PlainField lines = Ok f -> (forall l, In l lines -> ~ In nl l) ->
  (In " "%char (dkeys (f_dict f)) -> forall p, In p (dkeys (f_dict f)) -> (32 <= N_of_ascii p)%N) ->
  exists s f', plain_repr f = Ok s /\ X4PlainField (split_char nl s) = Ok f' /\
    f_tag f' = f_tag f /\ (forall p, dget Ascii.eqb p (f_dict f') = dget Ascii.eqb p (f_dict f)) /\
    length (split_char nl s) = plain_total_len f.
Proof. exact field_roundtrip. Qed.
Print Assumptions C31_field_roundtrip.

Example C31_example : exists f,
  X4PlainField (map lit ["COMMENT    General"; "          2two"; "           two again"; "          1one"]) = Ok f /\
  (In " "%char (dkeys (f_dict f)) /\ forall p, In p (dkeys (f_dict f)) -> (32 <= N_of_ascii p)%N) /\
  exists s f', plain_repr f = Ok s /\
    s = join [nl] (map lit ["COMMENT    General"; "          1one"; "          2two"; "           two again"]) /\
    X4PlainField (split_char nl s) = Ok f'.
Proof.
  eexists. split; [vm_compute; reflexivity|]. split.
  - split; [now left|]. intros p I. cbn in I. repeat (destruct I as [<-|I]; [vm_compute; discriminate|]). destruct I.
  - do 2 eexists. split; [vm_compute; reflexivity|]. split; vm_compute; reflexivity.
Qed.

(** A tabulator as pointer sorts before the blank: the general text moves to the pointer. *)
Theorem C31_early_pointer_refuted : exists lines f s f' p,
  (forall l, In l lines -> ~ In nl l) /\ X4PlainField lines = Ok f /\ plain_repr f = Ok s /\
  X4PlainField (split_char nl s) = Ok f' /\ dget Ascii.eqb p (f_dict f') <> dget Ascii.eqb p (f_dict f).
Proof.
  exists [lit "COMMENT    general"; repeat sp 10 ++ [ch 9] ++ lit "special"].
  do 3 eexists. exists " "%char. split.
  - intros l [<-|[<-|[]]] I; cbn in I; repeat (destruct I as [I|I]; [discriminate|]); destruct I.
  - split; [vm_compute; reflexivity|]. split; [vm_compute; reflexivity|]. split; [vm_compute; reflexivity|]. vm_compute. discriminate.
Qed.
Print Assumptions C31_early_pointer_refuted.

(** An AUTHOR field without author cannot be printed at all. *)
Theorem C31_no_author_refuted : exists lines, forall e, exists f,
  make_field e (Some (lit "AUTHOR")) lines = Ok f /\ field_repr f = Raise AttributeError.
Proof. exists [lit "AUTHOR     .NOT GIVEN."]. intro e. eexists. split; vm_compute; reflexivity. Qed.
Print Assumptions C31_no_author_refuted.

(** C32.  repr(bib) announces the number of fields and of lines it prints, and reads back as the
    same fields in the same order. *)
Theorem C32_bib_repr_counts : forall e lines b kws, X4BibSection e lines = Ok b ->
  Forall2 field_keyword kws (bib_chunkify lines) -> NoDup kws ->
  (forall l, In l lines -> ~ In nl l) ->
  (forall fld, In fld (bib_chunkify lines) -> field_keyword (lit "AUTHOR") fld -> ~ author_missing fld) ->
  (N.of_nat (length lines) < 10 ^ 11)%N ->
  exists s header gs footer, bib_repr b = Ok s /\ split_char nl s = header :: concat gs ++ [footer] /\
    has_keyword header (lit "BIB") /\ has_keyword footer (lit "ENDBIB") /\
    writes_number (length gs) (columns 11 22 header) /\ writes_number (length (concat gs)) (columns 22 33 header) /\
    writes_number (length (concat gs)) (columns 11 22 footer) /\
    bib_chunkify (split_char nl s) = gs /\
    Forall2 (fun fld g => length g = length fld /\
       exists f f', X4PlainField fld = Ok f /\ X4PlainField g = Ok f' /\ f_tag f' = f_tag f /\
         ((In " "%char (dkeys (f_dict f)) -> forall p, In p (dkeys (f_dict f)) -> (32 <= N_of_ascii p)%N) ->
          f_tag f' = f_tag f /\ forall p, dget Ascii.eqb p (f_dict f') = dget Ascii.eqb p (f_dict f)))
      (bib_chunkify lines) gs.
Proof. exact bib_repr_spec. Qed.
Print Assumptions C32_bib_repr_counts.

Example C32_example : exists b, X4BibSection plain_env small_bib = Ok b /\
  bib_repr b = Ok (join [nl] small_bib) /\ length (bib_chunkify small_bib) = 2.
Proof. eexists. split; [vm_compute; reflexivity|]. split; vm_compute; reflexivity. Qed.

(** C60.  What is true: when every reaction is on one line (or on two, in double parentheses) and
    remarks follow their reaction, each pointer has exactly those reactions. *)
Theorem C60_monitor_items_partial : forall e x f ms p groups texts, X4MonitorField e x = Ok (f, ms) ->
  dget Ascii.eqb p (f_dict f) = Some (concat groups) -> Forall2 monitor_item groups texts ->
  exists l, dget Ascii.eqb p ms = Some l /\ Forall2 (fun t m => monitor_reaction e t = Ok m) texts l.
Proof. exact monitor_field_items. Qed.
Print Assumptions C60_monitor_items_partial.

Lemma C60_example_items :
  monitor_item (map lit ["(79-AU-197(N,G)79-AU-198,,SIG)"; "  from ENDF/B"]) (lit "(79-AU-197(N,G)79-AU-198,,SIG) from ENDF/B") /\
  monitor_item (map lit ["((92-U-235(N,F),,SIG)/"; "(92-U-238(N,F),,SIG))"]) (lit "((92-U-235(N,F),,SIG)/(92-U-238(N,F),,SIG))").
Proof.
  split.
  - apply (monitor_one (lit "(79-AU-197(N,G)79-AU-198,,SIG)") [lit "  from ENDF/B"] (lit " from ENDF/B")).
    + apply opens_iff. reflexivity.
    + reflexivity.
    + apply (remarks_cons (lit "  from ENDF/B") (lit "from ENDF/B") [] []).
      * apply strip_iff. reflexivity.
      * intro O. apply opens_iff in O. discriminate.
      * constructor.
  - apply (monitor_two (lit "((92-U-235(N,F),,SIG)/") (lit "(92-U-238(N,F),,SIG))") [] []).
    + apply opens_twice_iff. reflexivity.
    + intro B. vm_compute in B. discriminate.
    + constructor.
Qed.

(** False: a reaction in single parentheses continued on the next line gives one element for the
    first line and one for every character of the second. *)
Theorem C60_continuation_refuted : forall e x f ms p line next, X4MonitorField e x = Ok (f, ms) ->
  dget Ascii.eqb p (f_dict f) = Some [line; next] -> opens line -> ~ opens_twice line -> ~ balanced line ->
  exists l, dget Ascii.eqb p ms = Some l /\ length l = 1 + length next.
Proof. exact monitor_field_continued. Qed.
Print Assumptions C60_continuation_refuted.

(** What becomes of the text of an item: a heading (MONITn) is taken off and kept beside the
    reaction, and the reaction is read as in a REACTION field; a text without a parenthesis is kept. *)
Theorem C60_heading : forall e n rest m, ~ In ")"%char n -> ~ mentions (n ++ ")"%char :: rest) (lit "((MONIT") ->
  reaction_of_text e ("("%char :: rest) = Ok m ->
  monitor_reaction e (lit "((MONIT" ++ n ++ ")"%char :: rest) = Ok (Some (fst m), snd m, Some (lit "MONIT" ++ n)).
Proof. exact monitor_headed. Qed.
Print Assumptions C60_heading.
Theorem C60_no_heading : forall e rest m, ~ mentions ("("%char :: rest) (lit "((MONIT") ->
  reaction_of_text e ("("%char :: rest) = Ok m ->
  monitor_reaction e ("("%char :: rest) = Ok (Some (fst m), snd m, None).
Proof. exact monitor_plain. Qed.
Print Assumptions C60_no_heading.
Theorem C60_remark : forall e d, ~ mentions d (lit "((MONIT") -> (forall rest, d <> "("%char :: rest) ->
  monitor_reaction e d = Ok (None, PTok d, None).
Proof. exact monitor_remark. Qed.
Print Assumptions C60_remark.
(** (With the shipped dictionaries and the real grammars, see C60_grammar_example in P11.) *)

(** With a grammar that accepts what it is given: seven elements instead of one. *)
Definition any_reaction : env :=
  mkEnv (mkGrammars (fun _ => None) (fun _ => None) (fun _ => None) (fun _ => None) (fun _ => None) (fun _ => None)
                    (fun s => Some [PTok (lit "+"); PTok s])
                    (fun _ => None) (fun _ => None) (fun _ => None) (fun _ => None)) [] [] [] 10.
Definition continued_monitor : list str := map lit ["MONITOR    (79-AU-197(N,G)79-AU-198,"; "           ,SIG)x"].
Example C60_continuation_example : exists f ms,
  X4MonitorField any_reaction continued_monitor = Ok (f, ms) /\
  dget Ascii.eqb " "%char (f_dict f) = Some (map lit ["(79-AU-197(N,G)79-AU-198,"; ",SIG)x"]) /\
  option_map (@length _) (dget Ascii.eqb " "%char ms) = Some 7.
Proof. do 2 eexists. split; [vm_compute; reflexivity|]. split; vm_compute; reflexivity. Qed.

(** A missing second line is an IndexError. *)
Theorem C60_missing_line_refuted : forall e x f line, X4PlainField x = Ok f -> f_dict f = [(" "%char, [line])] ->
  opens line -> ~ balanced line -> X4MonitorField e x = Raise IndexError.
Proof. exact monitor_field_alone. Qed.
Print Assumptions C60_missing_line_refuted.

Example C60_missing_example : forall e,
  X4MonitorField e [lit "MONITOR    (79-AU-197(N,G)79-AU-198,"] = Raise IndexError.
Proof.
  intro e. eapply C60_missing_line_refuted; [vm_compute; reflexivity|reflexivity| |].
  - apply opens_iff. reflexivity.
  - intro B. vm_compute in B. discriminate.
Qed.
