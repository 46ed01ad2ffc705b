(** Properties C08-C15, C19: the database manager. *)
From Coq Require Import String List Ascii NArith ZArith Bool Arith Sorted.
From Verif.Model Require Import Py Utilities Sql Manager.
From Verif.Spec Require Import Text Query.
From Verif.Proofs Require Import ManagerLemmas.
Import ListNotations.
Local Open Scope list_scope.

(** A small index table used in the examples. *)
Definition ex_row (e s a r p t q : string) : row :=
  mkRow (Some (lit e)) (lit s) None (Some (lit a)) (Some (lit r)) (Some (lit p)) (Some (lit t))
        (Some (lit q)).
Definition ex_table : list row :=
  [ex_row "10001" "10001003" "Doe" "N,G" "N" "U-235" "SIG";
   ex_row "10001" "10001002" "Doe" "N,F" "N" "U-235" "SIG";
   ex_row "A0001" "A0001002" "O'neil" "P,G" "P" "C-12" "DA";
   ex_row "10001" "10001002" "Roe" "N,F" "N" "U-235" "SIG"].

(** C08 *)
Theorem C08_key_length : forall i,
  let s := match i with KStr s => s | KInt z => z_to_str z end in
  ((length s = 5 \/ length s = 8) /\ fixkey i = Ok s) \/
  (length s <> 5 /\ length s <> 8 /\ fixkey i = Raise KeyError).
Proof. exact fixkey_spec. Qed.
Print Assumptions C08_key_length.

Theorem C08_bad_keys_raise : forall (E : Type) (mk : list str -> res E) table fs i,
  let s := match i with KStr s => s | KInt z => z_to_str z end in
  length s <> 5 -> length s <> 8 ->
  db_getitem mk table fs i = Raise KeyError /\ db_contains table i = Raise KeyError /\
  db_setitem table i = Raise KeyError.
Proof. exact bad_keys. Qed.
Print Assumptions C08_bad_keys_raise.

Theorem C08_dispatch : forall (E : Type) (mk : list str -> res E) table fs i,
  let s := match i with KStr s => s | KInt z => z_to_str z end in
  (length s = 5 -> db_getitem mk table fs i = retrieve mk table fs (by_entry s)) /\
  (length s = 8 -> db_getitem mk table fs i = retrieve mk table fs (by_subent s)).
Proof. exact getitem_dispatch. Qed.
Print Assumptions C08_dispatch.

Theorem C08_assignment_fails : forall table i, exists e, db_setitem table i = Raise e.
Proof. exact setitem_fails. Qed.
Print Assumptions C08_assignment_fails.

Example C08_example : fixkey (KInt 10001) = Ok (lit "10001")
  /\ fixkey (KStr (lit "A0001002")) = Ok (lit "A0001002")
  /\ fixkey (KStr (lit "A000100")) = Raise KeyError /\ fixkey (KInt (-123)) = Raise KeyError.
Proof. repeat split; vm_compute; reflexivity. Qed.

(** C09, C10: for criteria without a quote (and, with a star, without the SQL wildcards) a
    query answers, and the answer is the grouping of the subentries of the matching rows. *)
Theorem C09_query_groups : forall table c, clean_criteria c -> used_values c <> [] ->
  exists m, query table c = Ok m /\
  grouping (fun s => exists r, In r table /\ row_matches c r /\ r_subent r = s) m.
Proof. exact query_spec. Qed.
Print Assumptions C09_query_groups.

(** Whatever the criteria, an answer is the grouping of some set of subentries of the table. *)
Theorem C09_answer_is_grouping : forall table c m, query table c = Ok m ->
  exists P : str -> Prop, (forall s, P s -> exists r, In r table /\ r_subent r = s) /\ grouping P m.
Proof. exact query_any. Qed.
Print Assumptions C09_answer_is_grouping.

(** The specification leaves no freedom. *)
Theorem C09_grouping_unique : forall P m1 m2, grouping P m1 -> grouping P m2 -> m1 = m2.
Proof. exact grouping_unique. Qed.
Print Assumptions C09_grouping_unique.

(** Row order and repeated rows do not matter. *)
Theorem C09_row_order : forall table table' c, clean_criteria c ->
  (forall r, In r table <-> In r table') -> query table c = query table' c.
Proof. exact query_perm. Qed.
Print Assumptions C09_row_order.

Example C09_example :
  query ex_table (mkCriteria (Some (lit "dOE")) None (Some (lit "u-235")) None (Some (lit "CS"))
                   None None None None None None None None)
  = Ok [(lit "10001", [lit "10001001"; lit "10001002"; lit "10001003"])]
  /\ clean_criteria (mkCriteria (Some (lit "dOE")) None (Some (lit "u-235")) None (Some (lit "CS"))
                   None None None None None None None None).
Proof.
  split; [vm_compute; reflexivity|]. split; [|discriminate].
  repeat constructor; cbn; intuition discriminate.
Qed.

(** C10: apart from the documentation subentry, which is always listed, a subentry is in the
    answer exactly when a row for it satisfies every criterion. *)
Theorem C10_query_selects_matching_rows : forall table c m s, clean_criteria c -> used_values c <> [] ->
  query table c = Ok m -> length s = 8 -> s <> firstn 5 s ++ lit "001" ->
  (listed m s <-> exists r, In r table /\ row_matches c r /\ r_subent r = s).
Proof. exact query_rows. Qed.
Print Assumptions C10_query_selects_matching_rows.

Example C10_example :
  row_matches (mkCriteria (Some (lit "dOE")) None (Some (lit "u-235")) None (Some (lit "CS"))
                   None None None None None None None None)
              (ex_row "10001" "10001003" "Doe" "N,G" "N" "U-235" "SIG").
Proof. repeat split; try discriminate; intros v E; injection E as <-; vm_compute; reflexivity. Qed.

(** C11, REFUTED: a quote ends the literal. *)
Theorem C11_criteria_are_data_refuted :
  (exists table c v m, c_author c = Some v /\ query table c = Ok m /\
     (forall r, In r table -> ~ row_matches c r) /\ m <> []) /\
  (exists table c v r, c_author c = Some v /\ In r table /\ row_matches c r /\
     query table c = Raise SqlError).
Proof. exact injection. Qed.
Print Assumptions C11_criteria_are_data_refuted.

(** The restricted form: any text without a quote or NUL is data, for every criterion. *)
Theorem C11_plain_text_is_data_partial : forall table v r, plain_text v -> In r table ->
  (exists m, query table (mkCriteria (Some v) None None None None None None None None None None None None)
     = Ok m /\
   (r_author r = Some (capitalize v) -> exists l, In (firstn 5 (r_subent r), l) m /\ In (r_subent r) l) /\
   ((forall r', In r' table -> r_author r' <> Some (capitalize v)) -> m = [])).
Proof. exact author_data. Qed.
Print Assumptions C11_plain_text_is_data_partial.

(** So is any text without NUL in which every quote is written twice. *)
Theorem C11_doubled_quotes_are_data : forall table v, ~ In (ascii_of_N 0) (capitalize v) ->
  exists m, query table (mkCriteria (Some (doubled v)) None None None None None None None None None None None None) = Ok m /\
    grouping (fun s => exists r, In r table /\ r_author r = Some (capitalize v) /\ r_subent r = s) m.
Proof. exact query_doubled. Qed.
Print Assumptions C11_doubled_quotes_are_data.
Example C11_doubled_example :
  query [ex_row "10001" "10001003" "O'neil" "N,G" "N" "U-235" "SIG"; ex_row "10002" "10002002" "Oneil" "N,G" "N" "U-235" "SIG"]
    (mkCriteria (Some (doubled (lit "o'neil"))) None None None None None None None None None None None None)
  = Ok [(lit "10001", [lit "10001001"; lit "10001003"])].
Proof. vm_compute. reflexivity. Qed.

Example C11_example :
  query ex_table (mkCriteria (Some (lit "o'neil")) None None None None None None None None None None None None)
    = Raise SqlError
  /\ query ex_table (mkCriteria (Some (lit "x' or author='Doe")) None None None None None None None None None None None None)
    = Ok []
  /\ query ex_table (mkCriteria (Some (lit "x' or '1'='1")) None None None None None None None None None None None None)
    = Ok [(lit "10001", [lit "10001001"; lit "10001002"; lit "10001003"]);
          (lit "A0001", [lit "A0001001"; lit "A0001002"])].
Proof. repeat split; vm_compute; reflexivity. Qed.

(** C12: with a star, the selected reactions are those the pattern describes. *)
Theorem C12_star_is_wildcard_partial : forall table pat r m, plain_text pat -> In "*"%char pat ->
  ~ In "%"%char pat -> ~ In "_"%char pat -> In r table -> length (r_subent r) = 8 ->
  query table (mkCriteria None (Some pat) None None None None None None None None None None None) = Ok m ->
  ((exists t, r_reaction r = Some t /\ glob (upper pat) t) ->
     exists l, In (firstn 5 (r_subent r), l) m /\ In (r_subent r) l) /\
  ((forall r' t, In r' table -> r_subent r' = r_subent r -> r_reaction r' = Some t -> ~ glob (upper pat) t) ->
     r_subent r <> firstn 5 (r_subent r) ++ lit "001" ->
     forall e l, In (e, l) m -> ~ In (r_subent r) l).
Proof. exact star_wildcard. Qed.
Print Assumptions C12_star_is_wildcard_partial.

(** REFUTED for patterns with an underscore or a percent sign. *)
Theorem C12_star_is_wildcard_refuted : exists table pat r t m,
  In "*"%char pat /\ table = [r] /\ r_reaction r = Some t /\ ~ glob (upper pat) t /\
  query table (mkCriteria None (Some pat) None None None None None None None None None None None) = Ok m /\
  m <> [].
Proof. exact star_refuted. Qed.
Print Assumptions C12_star_is_wildcard_refuted.

Example C12_example :
  query ex_table (mkCriteria None (Some (lit "n,*")) None None None None None None None None None None None)
  = Ok [(lit "10001", [lit "10001001"; lit "10001002"; lit "10001003"])]
  /\ glob (upper (lit "n,*")) (lit "N,G").
Proof.
  split; [vm_compute; reflexivity|]. vm_compute.
  apply glob_char; [discriminate|now left|]. apply glob_char; [discriminate|now left|].
  apply (glob_star [] (lit "G") []). constructor.
Qed.

(** C13 *)
Theorem C13_more_criteria_fewer_matches : forall table c c' m m',
  clean_criteria c -> clean_criteria c' -> used_values c <> [] -> extends c c' ->
  query table c = Ok m -> query table c' = Ok m' ->
  incl (map fst m') (map fst m) /\ forall s, listed m' s -> listed m s.
Proof. exact query_monotone. Qed.
Print Assumptions C13_more_criteria_fewer_matches.

Theorem C13_ignored_criteria : forall table c c',
  c_author c = c_author c' -> c_target c = c_target c' -> c_reaction c = c_reaction c' ->
  c_projectile c = c_projectile c' -> c_quantity c = c_quantity c' ->
  c_SUBENT c = c_SUBENT c' -> c_ENTRY c = c_ENTRY c' ->
  query table c = query table c'.
Proof. exact query_ignores. Qed.
Print Assumptions C13_ignored_criteria.

Theorem C13_no_criteria : forall table c, used_values c = [] -> query table c = Ok [].
Proof. exact query_empty. Qed.
Print Assumptions C13_no_criteria.

Example C13_example :
  extends (mkCriteria (Some (lit "Doe")) None None None None None None None None None None None None)
          (mkCriteria (Some (lit "Doe")) (Some (lit "N,F")) None None None None None None None None None None None)
  /\ query ex_table (mkCriteria (Some (lit "Doe")) (Some (lit "N,F")) None None None None None None None None None None None)
     = Ok [(lit "10001", [lit "10001001"; lit "10001002"])].
Proof. split; [repeat split; cbn; intros; congruence|vm_compute; reflexivity]. Qed.

(** C14 *)
Theorem C14_contains_entry_partial : forall table s, length s = 5 -> plain_text s ->
  exists b, db_contains table (KStr s) = Ok b /\
  (b = true <-> exists r, In r table /\ r_entry r = Some s).
Proof. exact contains_entry. Qed.
Print Assumptions C14_contains_entry_partial.

(** REFUTED for subentries: the answer is a TypeError for every table and key. *)
Theorem C14_contains_subentry_refuted : forall table s, length s = 8 -> plain_text s ->
  db_contains table (KStr s) = Raise TypeError.
Proof. exact contains_subent. Qed.
Print Assumptions C14_contains_subentry_refuted.

Example C14_example : db_contains ex_table (KStr (lit "A0001")) = Ok true
  /\ db_contains ex_table (KStr (lit "B0001")) = Ok false
  /\ db_contains ex_table (KStr (lit "A0001002")) = Raise TypeError.
Proof. repeat split; vm_compute; reflexivity. Qed.

(** C15 *)
Theorem C15_absent_key : forall (E : Type) (mk : list str -> res E) table fs s,
  (length s = 5 \/ length s = 8) -> plain_text s ->
  (length s = 5 -> forall r, In r table -> r_entry r <> Some s) ->
  (length s = 8 -> forall r, In r table -> r_subent r <> s) ->
  db_getitem mk table fs (KStr s) = Ok [].
Proof. exact getitem_absent. Qed.
Print Assumptions C15_absent_key.

Example C15_example : forall fs, db_getitem (@Ok (list str)) ex_table fs (KStr (lit "B0001")) = Ok [].
Proof. intro. vm_compute. reflexivity. Qed.

(** C19 *)
Theorem C19_letters_inverse : forall a b,
  In (a, b) EntryLetterConversion <-> In (b, a) revEntryLetterConversion.
Proof. exact letters_inverse. Qed.
Print Assumptions C19_letters_inverse.

Theorem C19_letters_functions :
  NoDup (map fst EntryLetterConversion) /\ NoDup (map snd EntryLetterConversion) /\
  forall a b, In (a, b) EntryLetterConversion ->
    dget str_eqb a EntryLetterConversion = Some b /\ dget str_eqb b revEntryLetterConversion = Some a.
Proof. exact letters_functions. Qed.
Print Assumptions C19_letters_functions.

(** The letter of code n is the n-th letter from A = 10. *)
Theorem C19_letters_value : forall a b, In (a, b) EntryLetterConversion ->
  exists n, int_of_str a = Some (Z.of_N n) /\ (10 <= n <= 35)%N /\ b = [ascii_of_N (n + 55)].
Proof. exact letters_value. Qed.
Print Assumptions C19_letters_value.

Example C19_example : In (lit "25", lit "P") EntryLetterConversion.
Proof. vm_compute. auto 20. Qed.
