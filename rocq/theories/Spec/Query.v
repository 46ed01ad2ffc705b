(** What a query means, stated on rows and sets of subentry numbers. *)
From Coq Require Import String List Ascii NArith Bool Arith Sorted.
From Verif.Model Require Import Py Sql Manager.
Import ListNotations.
Local Open Scope list_scope.

(** Lexicographic order by code point. *)
Definition str_lt (a b : str) : Prop :=
  (exists c r, b = a ++ c :: r) \/
  (exists p x y ra rb, a = p ++ x :: ra /\ b = p ++ y :: rb /\ (N_of_ascii x < N_of_ascii y)%N).

(** Two characters equal up to ASCII case. *)
Definition same_letter (a b : ascii) : Prop :=
  a = b \/
  (97 <= N_of_ascii b <= 122 /\ N_of_ascii b = N_of_ascii a + 32)%N \/
  (97 <= N_of_ascii a <= 122 /\ N_of_ascii a = N_of_ascii b + 32)%N.

(** [glob p s]: [s] is [p] with every star replaced by some text, up to ASCII case. *)
Inductive glob : str -> str -> Prop :=
| glob_nil : glob [] []
| glob_char : forall c d p s, c <> "*"%char -> same_letter c d -> glob p s -> glob (c :: p) (d :: s)
| glob_star : forall p x s, glob p s -> glob ("*"%char :: p) (x ++ s).

(** Row [r] satisfies every criterion that is given, after the documented case folding. *)
Definition row_matches (c : criteria) (r : row) : Prop :=
  (forall v, c_author c = Some v -> r_author r = Some (capitalize v)) /\
  (forall v, c_target c = Some v -> r_target r = Some (upper v)) /\
  (forall v, c_reaction c = Some v ->
     (~ In "*"%char v -> r_reaction r = Some (upper v)) /\
     (In "*"%char v -> exists t, r_reaction r = Some t /\ glob (upper v) t)) /\
  (forall v, c_projectile c = Some v -> r_projectile r = Some (upper v)) /\
  (forall v, c_quantity c = Some v ->
     r_quantity r = Some (if str_eqb v (lit "CS") then lit "SIG" else upper v)) /\
  (forall v, c_SUBENT c = Some v -> r_subent r = v) /\
  (forall v, c_ENTRY c = Some v -> r_entry r = Some v).

(** The criteria that query() looks at. *)
Definition used_values (c : criteria) : list str :=
  opt_list (c_author c) ++ opt_list (c_target c) ++ opt_list (c_reaction c) ++
  opt_list (c_projectile c) ++ opt_list (c_quantity c) ++ opt_list (c_SUBENT c) ++
  opt_list (c_ENTRY c).

(** No quote, no NUL. *)
Definition plain_text (s : str) : Prop := ~ In (ascii_of_N 39) s /\ ~ In (ascii_of_N 0) s.
(** A pattern with a star has no other SQL wildcard. *)
Definition plain_pattern (s : str) : Prop :=
  In "*"%char s -> ~ In "%"%char s /\ ~ In "_"%char s.

Definition clean_criteria (c : criteria) : Prop :=
  Forall plain_text (used_values c) /\ (forall v, c_reaction c = Some v -> plain_pattern v).

(** [m] is the grouping of the set [P] of subentry numbers by entry: one key per 5-character
    prefix in increasing order; under it the documentation subentry and then every other
    member of [P] with that prefix, once, in increasing order. *)
Definition grouping (P : str -> Prop) (m : list (str * list str)) : Prop :=
  StronglySorted str_lt (map fst m) /\
  (forall e, In e (map fst m) <-> exists s, P s /\ firstn 5 s = e) /\
  (forall e l, In (e, l) m -> exists rest, l = (e ++ lit "001") :: rest /\
     StronglySorted str_lt rest /\
     forall s, In s rest <-> P s /\ firstn 5 s = e /\ s <> e ++ lit "001").

(** [c'] has every criterion that [c] has. *)
Definition extends (c c' : criteria) : Prop :=
  (forall v, c_author c = Some v -> c_author c' = Some v) /\
  (forall v, c_target c = Some v -> c_target c' = Some v) /\
  (forall v, c_reaction c = Some v -> c_reaction c' = Some v) /\
  (forall v, c_projectile c = Some v -> c_projectile c' = Some v) /\
  (forall v, c_quantity c = Some v -> c_quantity c' = Some v) /\
  (forall v, c_SUBENT c = Some v -> c_SUBENT c' = Some v) /\
  (forall v, c_ENTRY c = Some v -> c_ENTRY c' = Some v).

(** [s] is one of the subentries in the answer [m]. *)
Definition listed (m : list (str * list str)) (s : str) : Prop :=
  exists e l, In (e, l) m /\ In s l.

(** Every quote written twice. *)
Definition doubled (s : str) : str :=
  flat_map (fun c => if Ascii.eqb c (ascii_of_N 39) then [c; c] else [c]) s.
