(** Which data sets an operation of a program changes and which it looks at. *)
From Coq Require Import List.
From Verif.Model Require Import Heap.

(** The operation changes data set [n] and makes no new ones. *)
Definition changes_only (n : nat) (o : hop) : Prop :=
  match o with
  | Simplify _ _ _ => False
  | Append _ k _ | Sort _ k | SetCell k _ _ _ | SetLabel k _ _ => k = n
  end.
(** The operation has nothing to do with data set [n]. *)
Definition avoids (n : nat) (o : hop) : Prop :=
  match o with
  | Append _ k j => k <> n /\ j <> n
  | Simplify _ _ k | Sort _ k | SetCell k _ _ _ | SetLabel k _ _ => k <> n
  end.
(** The operation is not getSimplified. *)
Definition not_simplify (o : hop) : Prop := match o with Simplify _ _ _ => False | _ => True end.
