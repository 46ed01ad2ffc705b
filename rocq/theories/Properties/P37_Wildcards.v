(** Property C12 for reaction patterns of any characters: what query() finds. *)
From Coq Require Import String List Ascii NArith Bool Arith.
From Verif.Model Require Import Py Sql Manager.
From Verif.Spec Require Import Query Wildcards.
From Verif.Proofs Require Import WildcardLemmas.
From Verif.Properties Require Import P02_Manager.
Import ListNotations.
Local Open Scope string_scope.
Local Open Scope list_scope.

(** Whatever the pattern is, as long as no criterion has a quote: the subentries found are those
    of the rows that match, where a percent sign is a star too and an underscore is any character. *)
Theorem C12_any_pattern : forall table c, Forall plain_text (used_values c) -> used_values c <> [] ->
  exists m, query table c = Ok m /\ grouping (fun s => exists r, In r table /\ row_found c r /\ r_subent r = s) m.
Proof. intros table c P U. exact (query_found c P table U). Qed.
Print Assumptions C12_any_pattern.

(** So a pattern with such characters finds too much, but misses nothing. *)
Theorem C12_nothing_missed : forall table c m r, Forall plain_text (used_values c) -> used_values c <> [] -> query table c = Ok m ->
  In r table -> row_matches c r -> exists l, In (firstn 5 (r_subent r), l) m /\ In (r_subent r) l.
Proof. exact nothing_missed. Qed.
Print Assumptions C12_nothing_missed.

(** The two readings of a pattern differ only by these characters. *)
Theorem C12_readings : forall p s, (glob p s -> wild p s) /\ (~ In "%"%char p -> ~ In "_"%char p -> wild p s -> glob p s).
Proof. intros p s. split; [exact (glob_wild p s)|exact (wild_glob p s)]. Qed.
Print Assumptions C12_readings.

(** "_,*" finds the reactions of neutrons and of protons. *)
Definition with_underscore : criteria := mkCriteria None (Some (lit "_,*")) None None None None None None None None None None None.
Example C12_underscore :
  Forall plain_text (used_values with_underscore) /\
  query ex_table with_underscore = Ok [(lit "10001", [lit "10001001"; lit "10001002"; lit "10001003"]); (lit "A0001", [lit "A0001001"; lit "A0001002"])] /\
  (forall r, In r ex_table -> row_found with_underscore r).
Proof.
  split; [repeat constructor; cbn; intuition discriminate|]. split; [vm_compute; reflexivity|].
  intros r I. split; [repeat split; discriminate|]. intros v E. injection E as <-. split; [intros N; exfalso; apply N; cbn; tauto|]. intros _.
  assert (W : forall a b, wild (upper (lit "_,*")) [a; ","%char; b]).
  { intros a b. vm_compute. apply wild_one. apply wild_char; [discriminate|discriminate|discriminate|now left|].
    apply (wild_any "*"%char [] [b] []); [now left|constructor]. }
  cbn [In ex_table] in I. destruct I as [<-|[<-|[<-|[<-|[]]]]]; eexists; (split; [reflexivity|apply W]).
Qed.
(** A percent sign stands for a comma; two underscores want two characters before the F. *)
Example C12_percent :
  query ex_table (mkCriteria None (Some (lit "n%g*")) None None None None None None None None None None None) = Ok [(lit "10001", [lit "10001001"; lit "10001003"])] /\
  query ex_table (mkCriteria None (Some (lit "n__*f")) None None None None None None None None None None None) = Ok [].
Proof. split; vm_compute; reflexivity. Qed.
