(** What a reaction pattern of query() describes, whatever characters it has. *)
From Coq Require Import String List Ascii NArith Bool Arith.
From Verif.Model Require Import Py Sql Manager.
From Verif.Spec Require Import Query.
Import ListNotations.
Local Open Scope list_scope.

(** [wild p s]: [s] is [p] with every star and every percent sign replaced by some text and every
    underscore by one character, up to ASCII case. *)
Inductive wild : str -> str -> Prop :=
| wild_nil : wild [] []
| wild_char : forall c d p s, c <> "*"%char -> c <> "%"%char -> c <> "_"%char -> same_letter c d -> wild p s -> wild (c :: p) (d :: s)
| wild_one : forall d p s, wild p s -> wild ("_"%char :: p) (d :: s)
| wild_any : forall c p x s, c = "*"%char \/ c = "%"%char -> wild p s -> wild (c :: p) (x ++ s).

Definition without_reaction (c : criteria) : criteria :=
  mkCriteria (c_author c) None (c_target c) (c_projectile c) (c_quantity c) (c_product c) (c_MF c) (c_MT c) (c_C c) (c_S c) (c_I c) (c_SUBENT c) (c_ENTRY c).
(** Row [r] satisfies every criterion that is given; the reaction as a pattern if it has a star. *)
Definition row_found (c : criteria) (r : row) : Prop :=
  row_matches (without_reaction c) r /\
  forall v, c_reaction c = Some v ->
    (~ In "*"%char v -> r_reaction r = Some (upper v)) /\
    (In "*"%char v -> exists t, r_reaction r = Some t /\ wild (upper v) t).
