(** Properties C71-C73: authors, institutes and references. *)
From Coq Require Import String List Ascii NArith ZArith Bool Arith.
From Verif.Model Require Import Py Dicts Particle Reaction Field Pyparsing Grammars Shipped.
From Verif.Spec Require Import Text Codes Exfor Names References.
From Verif.Proofs Require Import ParseLemmas InstituteLemmas ReferenceLemmas NamesExamples RefCheck.
Import ListNotations.
Local Open Scope string_scope.
Local Open Scope list_scope.
Local Open Scope nat_scope.

(** ** C71: the authors are the names of the list, in order *)

Theorem C71_authors : forall c e lines f nss, e_g e = x4grammars c -> X4PlainField lines = Ok f ->
  ~ author_missing lines ->
  Forall2 (fun names pl => author_list names (concat (map strip (snd pl)))) nss (f_dict f) ->
  exists a, X4AuthorField e lines = Ok a /\ a_plain a = f /\ a_authors a = map title (concat nss) /\
    Forall2 after_last_dot (a_authors a) (a_family_names a).
Proof. exact author_field. Qed.
Print Assumptions C71_authors.

(** An AUTHOR field that says that there are none gives none. *)
Theorem C71_no_authors : forall e lines, author_missing lines ->
  exists a, X4AuthorField e lines = Ok a /\ a_authors a = [] /\ a_family_names a = [].
Proof. exact no_authors. Qed.
Print Assumptions C71_no_authors.

Definition institutes_dict : x4dict :=
  [(tx "LRL", [tx "Lawrence Livermore"; tx "USA"]); (tx "BNL", [tx "Brookhaven"; tx "USA"])].
Definition some_dicts : list (str * x4dict) :=
  [(tx "Journals", [(tx "PR", [tx "Phys. Rev."; tx "USA"])]);
   (tx "ReferenceTypes", [(tx "R", [tx "R"; tx "Report"]); (tx "3", [tx "3"; tx "Data file"])])].
Definition e1 : env := mkEnv (x4grammars shipped) (map (fun k => (k, [tx "compound"])) dict09_keys) institutes_dict some_dicts 10.

Definition author_lines : list str :=
  [tx "AUTHOR     (J.A.DOE,R. VAN DER BERG,"; tx "           E.SMITH) Speaker is J.A.Doe"].
Definition author_names : list str := [tx "J.A.DOE"; tx "R. VAN DER BERG"; tx "E.SMITH"].
Example C71_hypotheses :
  ~ author_missing author_lines /\
  exists f, X4PlainField author_lines = Ok f /\
    Forall2 (fun names pl => author_list names (concat (map strip (snd pl)))) [author_names] (f_dict f).
Proof.
  split; [apply missing_no; vm_compute; reflexivity|].
  eexists. split; [vm_compute; reflexivity|]. constructor; [|constructor].
  left. apply (name_list_ok author_names [0; 0; 0] (tx " Speaker is J.A.Doe")); vm_compute; reflexivity.
Qed.
Example C71_example : exists a, X4AuthorField e1 author_lines = Ok a /\
  a_authors a = [tx "J.A.Doe"; tx "R. Van Der Berg"; tx "E.Smith"] /\
  a_family_names a = [tx "Doe"; tx " Van Der Berg"; tx "Smith"].
Proof. eexists. vm_compute. auto. Qed.

(** The closing parenthesis may be missing. *)
Definition unclosed_lines : list str := [tx "AUTHOR     (J.A.DOE,R. VAN DER BERG,"; tx "           E.SMITH"].
Example C71_unclosed : exists f, X4PlainField unclosed_lines = Ok f /\
  Forall2 (fun names pl => author_list names (concat (map strip (snd pl)))) [author_names] (f_dict f) /\
  exists a, X4AuthorField e1 unclosed_lines = Ok a /\ a_authors a = [tx "J.A.Doe"; tx "R. Van Der Berg"; tx "E.Smith"].
Proof.
  eexists. split; [vm_compute; reflexivity|]. split; [|eexists; vm_compute; auto]. constructor; [|constructor]. right. split.
  - intros I. assert (B : existsb (Ascii.eqb ")"%char) (concat (map strip [tx "(J.A.DOE,R. VAN DER BERG,"; tx "E.SMITH"])) = true).
    { apply existsb_exists. exists ")"%char. split; [exact I|reflexivity]. }
    vm_compute in B. discriminate B.
  - apply (name_list_ok author_names [0; 0; 0] []); vm_compute; reflexivity.
Qed.

(** False of other names: a letter that is not ASCII cuts the list off without an error, two
    apostrophes put blanks into names, and a text without parentheses is a TypeError. *)
Theorem C71_authors_refuted :
  (exists a, X4AuthorField e1 [tx "AUTHOR     (J.M" ++ ascii_of_N 220 :: tx "LLER,A.DOE)"] = Ok a /\ a_authors a = [tx "J.M"]) /\
  (exists a, X4AuthorField e1 [tx "AUTHOR     (J.D'ALONZO,P.O'NEIL)"] = Ok a /\ a_authors a = [tx "J.D 'Alonzo"; tx "P.O' Neil"]) /\
  X4AuthorField e1 [tx "AUTHOR     J.DOE"] = Raise TypeError.
Proof. split; [eexists; vm_compute; auto|split; [eexists; vm_compute; auto|vm_compute; reflexivity]]. Qed.
Print Assumptions C71_authors_refuted.

(** ** C72: every institute code is an institute, named by the dictionary, with its comment *)

Theorem C72_institutes : forall c e lines f iss, e_g e = x4grammars c -> X4PlainField lines = Ok f ->
  (forall k l, dget str_eqb k (e_institutes e) = Some l -> l <> []) ->
  Forall2 (fun is pl => is <> [] /\ institutes_text is (subfield_str (snd pl)) /\ no_tabs (subfield_str (snd pl))) iss (f_dict f) ->
  exists rs, X4InstituteField e lines = Ok (f, rs) /\
    Forall2 (institute_named title (fun k => dget str_eqb k (e_institutes e))) (concat iss) rs.
Proof. exact institute_field. Qed.
Print Assumptions C72_institutes.

Definition institute_lines : list str :=
  [tx "INSTITUTE  (1USALRL) on leave from"; tx "           Berkeley"; tx "           (1USABNL)"].
Definition institute_items : list (str * list str) :=
  [(tx "1USALRL", [tx "on"; tx "leave"; tx "from"; tx "Berkeley"]); (tx "1USABNL", [])].
Example C72_hypotheses : exists f, X4PlainField institute_lines = Ok f /\
  Forall2 (fun is pl => is <> [] /\ institutes_text is (subfield_str (snd pl)) /\ no_tabs (subfield_str (snd pl)))
    [institute_items] (f_dict f).
Proof.
  eexists. split; [vm_compute; reflexivity|]. constructor; [|constructor]. split; [discriminate|]. split.
  - apply (render_ok [mkPiece [] (tx "1USALRL") [] [(tx " ", tx "on"); (tx " ", tx "leave"); (tx " ", tx "from"); (tx " ", tx "Berkeley")];
                      mkPiece (tx " ") (tx "1USABNL") [] []] [] []); vm_compute; reflexivity.
  - apply no_tabsb_ok. vm_compute. reflexivity.
Qed.
Example C72_example : exists f, X4InstituteField e1 institute_lines =
  Ok (f, [(tx "1USALRL", tx "Lawrence Livermore", tx "On Leave From Berkeley"); (tx "1USABNL", tx "Brookhaven", [])]).
Proof. eexists. vm_compute. reflexivity. Qed.

(** Older codes have a blank after the country, and comments may begin at once.  Here nothing after
    the equals sign is read. *)
Definition older_lines : list str :=
  [tx "INSTITUTE  (2UK BNL).On leave"; tx "           (1USALRL) a = b (1USABNL)"].
Definition older_items : list (str * list str) := [(tx "2UK", [tx ".On"; tx "leave"]); (tx "1USALRL", [tx "a"])].
Example C72_older : exists f, X4PlainField older_lines = Ok f /\
  Forall2 (fun is pl => is <> [] /\ institutes_text is (subfield_str (snd pl)) /\ no_tabs (subfield_str (snd pl)))
    [older_items] (f_dict f).
Proof.
  eexists. split; [vm_compute; reflexivity|]. constructor; [|constructor]. split; [discriminate|]. split.
  - apply (render_ok [mkPiece [] (tx "2UK") [(tx " ", tx "BNL")] [([], tx ".On"); (tx " ", tx "leave")];
                      mkPiece (tx " ") (tx "1USALRL") [] [(tx " ", tx "a")]] (tx " ") (tx "= b (1USABNL)")); vm_compute; reflexivity.
  - apply no_tabsb_ok. vm_compute. reflexivity.
Qed.

(** False of other texts: of several codes in one pair of parentheses only the last is named, a
    remark in parentheses becomes an institute, a code with a blank is known by the country alone,
    and an institute after a comment with an equals sign is lost. *)
Theorem C72_institutes_refuted :
  (exists f, X4InstituteField e1 [tx "INSTITUTE  (1USALRL,1USABNL)"] = Ok (f, [(tx "1USALRL,1USABNL", tx "Brookhaven", [])])) /\
  (exists f, X4InstituteField e1 [tx "INSTITUTE  (1USALRL) data (see below)"] =
     Ok (f, [(tx "1USALRL", tx "Lawrence Livermore", tx "Data"); (tx "see", tx "see", [])])) /\
  (exists f, X4InstituteField e1 [tx "INSTITUTE  (2UK BNL)"] = Ok (f, [(tx "2UK", tx "2UK", [])])) /\
  (exists f, X4InstituteField e1 [tx "INSTITUTE  (1USALRL) a=b"; tx "           (1USABNL)"] =
     Ok (f, [(tx "1USALRL", tx "Lawrence Livermore", tx "A")])).
Proof. repeat split; eexists; vm_compute; reflexivity. Qed.
Print Assumptions C72_institutes_refuted.

(** ** C73: every reference is read; the first one describes the field *)

Theorem C73_references : forall c e lines f rss r0 rs0 rss0, e_g e = x4grammars c -> rows_ok (e_dicts e) ->
  X4PlainField lines = Ok f ->
  Forall2 (fun rs pl => pointer_refs rs (snd pl) /\ Forall (fun l => ~ In nl l) (snd pl)) rss (f_dict f) ->
  Forall (Forall (fun r => In (rt_type r) (publication_types ++ numbered_types))) rss ->
  rss = (r0 :: rs0) :: rss0 -> In (rt_type r0) publication_types ->
  exists x x0, X4ReferenceField e lines = Ok (f, x) /\
    Forall2 (fun rs px => Forall2 (ref_read (e_dicts e)) rs (snd px)) rss (ref_refs x) /\
    map fst (ref_refs x) = map fst (f_dict f) /\
    ref_read (e_dicts e) r0 x0 /\ ref_type x = rf_type (fst x0) /\ ref_name x = rf_name (fst x0) /\
    ref_details x = rf_details (fst x0) /\ ref_date x = rf_date (fst x0) /\ ref_pubyear x = rf_pubyear (fst x0) /\
    publication_kind (rt_type r0) = Some (ref_pubtype x).
Proof. exact reference_field. Qed.
Print Assumptions C73_references.

Definition reference_lines : list str :=
  [tx "REFERENCE  (J,PR,12 , 345 (1) ,197503) Main";
   tx "            paper";
   tx "           (R,UCRL-123,7203)";
   tx "           ((J,PR,13,2,7503) =";
   tx "           (R,UCRL-124,7412)) Same (1)";
   tx "          2(3,INDC(USA)-1,,72)"].
Definition reference_items : list (list ref) :=
  [[mkRefText "J" (tx "PR") [tx "12"; tx "345(1)"] [1; 9; 7; 5; 0; 3]%N (tx " Main paper");
    mkRefText "R" (tx "UCRL-123") [] [7; 2; 0; 3]%N [];
    mkRefText "J" (tx "PR") [tx "13"; tx "2"] [7; 5; 0; 3]%N (tx " Same (1)");
    mkRefText "R" (tx "UCRL-124") [] [7; 4; 1; 2]%N (tx " Same (1)")];
   [mkRefText "3" (tx "INDC(USA)-1") [[]] [7; 2]%N []]].
Example C73_hypotheses : rows_ok some_dicts /\
  exists f, X4PlainField reference_lines = Ok f /\
  Forall2 (fun rs pl => pointer_refs rs (snd pl) /\ Forall (fun l => ~ In nl l) (snd pl)) reference_items (f_dict f) /\
  Forall (Forall (fun r => In (rt_type r) (publication_types ++ numbered_types))) reference_items.
Proof.
  split; [apply rowsb_ok; vm_compute; reflexivity|]. eexists. split; [vm_compute; reflexivity|]. split.
  - constructor; [|constructor; [|constructor]]; (split; [|apply newlines_ok; vm_compute; reflexivity]);
      (match goal with |- pointer_refs ?rs ?ls => replace rs with (refs_guess ls) by (vm_compute; reflexivity) end);
      apply ref_linesb_ok; vm_compute; reflexivity.
  - repeat (apply Forall_cons || apply Forall_nil); vm_compute; auto 20.
Qed.
Example C73_example :
  match X4ReferenceField e1 reference_lines with
  | Ok (f, x) =>
      (ref_type x, ref_name x, ref_details x, ref_pubyear x, ref_pubtype x) =
        (tx "J", tx "PR", [tx "12"; tx "345(1)"], tx "1975", tx "Journal") /\
      map (fun p => map (fun r => (ref_str (fst r), snd r)) (snd p)) (ref_refs x) =
        [[(tx "Phys. Rev. 12, 345(1) (1975)", PTok (tx " Main paper")); (tx "Report: UCRL-123  (1972)", PTok []);
          (tx "Phys. Rev. 13, 2 (1975)", PTok (tx " Same (1)")); (tx "Report: UCRL-124  (1974)", PTok (tx " Same (1)"))];
         [(tx "Data file: Indc(usa)-1  (1972)", PTok [])]]
  | Raise _ => False
  end.
Proof. vm_compute. auto. Qed.

(** False of other fields: of a remark in parentheses only the first word is kept; a date that
    does not consist of digits makes a failure of the whole field, although the first reference
    is good, and so does an equals sign in a comment if another reference has several codes; a
    missing parenthesis and a numbered type in the first place are errors that are not announced
    by the class. *)
Theorem C73_references_refuted :
  (exists f x, X4ReferenceField e1 [tx "REFERENCE  (J,PR,12(A B),345,197503)"] = Ok (f, x) /\
     ref_details x = [tx "12(A)"; tx "345"]) /\
  (exists f x, X4ReferenceField e1 [tx "REFERENCE  (J,PR,12,345,197503)"; tx "           (J,PR,13,1,75/3)"] = Ok (f, x) /\
     ref_name x = tx "Parsing failed" /\ ref_pubyear x = tx "?") /\
  (exists f x, X4ReferenceField e1 [tx "REFERENCE  ((J,PR,12,345,7503)=(R,UCRL-124,7412))"; tx "           (J,PR,13,1,7503) Ein=3 MeV"] = Ok (f, x) /\
     ref_name x = tx "Parsing failed" /\ ref_pubyear x = tx "?") /\
  X4ReferenceField e1 [tx "REFERENCE  (J,PR,12,345(A,197503)"] = Raise ParseException /\
  X4ReferenceField e1 [tx "REFERENCE  (3,INDC(USA)-1,7203)"] = Raise KeyError.
Proof.
  split; [eexists; eexists; vm_compute; auto|]. split; [eexists; eexists; vm_compute; auto|]. split; [eexists; eexists; vm_compute; auto|].
  split; vm_compute; reflexivity.
Qed.
Print Assumptions C73_references_refuted.
