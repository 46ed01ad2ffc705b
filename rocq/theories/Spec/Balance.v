(** Charges and masses of the codes of a reaction, as the EXFOR manual gives them. *)
From Coq Require Import String List Ascii NArith ZArith Bool Arith.
From Verif.Model Require Import Py Particle Reaction.
From Verif.Spec Require Import Text Codes.
Import ListNotations.
Local Open Scope string_scope.
Local Open Scope list_scope.

(** [s] is the decimal number [n]. *)
Definition number_is (s : list ascii) (n : Z) : Prop :=
  exists ds, s = digits_text ds /\ is_digits ds /\ ds <> [] /\ n = Z.of_N (value10 ds).
(** A multiplicity: at least 2, no leading zero. *)
Definition count_is (s : list ascii) (n : Z) : Prop :=
  number_is s n /\ (2 <= n)%Z /\ forall t, s <> "0"%char :: t.

(** Charge and mass number of the light particles ("0" stands for no projectile). *)
Definition light : list (string * (Z * Z)) :=
  [("0", (0, 0)); ("G", (0, 0)); ("N", (0, 1)); ("P", (1, 1)); ("D", (1, 2)); ("T", (1, 3));
   ("HE3", (2, 3)); ("A", (2, 4)); ("E", (-1, 0))]%Z.

(** A nuclide without isomer code and not a natural element. *)
Definition nuclide_is (n : nuclide) (z a : Z) : Prop :=
  n_iso n = [] /\ number_is (n_Z n) z /\ number_is (n_A n) a /\ (0 < a)%Z.

Inductive weighs : pcode -> Z -> Z -> Prop :=
| weighs_one : forall w z a, In (w, (z, a)) light -> weighs (CWord (tx w)) z a
| weighs_many : forall count k w z a, count_is count k -> In (w, (z, a)) light ->
    weighs (CMany count (tx w)) (k * z) (k * a)
| weighs_nuclide : forall n z a, nuclide_is n z a -> weighs (CNuclide n) z a.

Inductive weigh_all : list pcode -> Z -> Z -> Prop :=
| weigh_nil : weigh_all [] 0 0
| weigh_cons : forall x l z a zs sa, weighs x z a -> weigh_all l zs sa -> weigh_all (x :: l) (z + zs) (a + sa).

(** The particle object [p] is what the code [x] of this charge and mass stands for: it has
    this charge and mass, and prints like the code.  (Neutrons written as nuclides, 0-NN-1,
    print differently.) *)
Definition neutron (x : pcode) : Prop := exists n, x = CNuclide n /\ upper (n_sym n) = tx "NN".
Definition object_of (x : pcode) (z a : Z) (p : particle) : Prop :=
  getZ p = Ok z /\ getA p = Ok a /\
  (~ neutron x -> exists t, exfor p = Ok t /\ upper t = upper (concat (code_tokens x))).
Inductive objects_of : list pcode -> list particle -> Prop :=
| objects_nil : objects_of [] []
| objects_cons : forall x p l ps z a, weighs x z a -> object_of x z a p -> objects_of l ps ->
    objects_of (x :: l) (p :: ps).

(** The reaction object [rx] says what the code [r] says, with [R] as residual. *)
Record tells (r : rcode) (rx : reaction) (R : particle) : Prop := {
  tells_target : exists T z a, p_targ (r_process rx) = RPart T /\ weighs (CNuclide (rc_target r)) z a /\
    object_of (CNuclide (rc_target r)) z a T;
  tells_projectile : exists P z a, p_proj (r_process rx) = RPart P /\ weighs (rc_projectile r) z a /\
    object_of (rc_projectile r) z a P;
  tells_products : exists ps, p_products (r_process rx) = map RPart ps /\ objects_of (rc_products r) ps;
  tells_residual : p_residual (r_process rx) = RPart R;
  tells_quantities : r_quant rx = map PTok (quantities r) }.

(** All codes of the reaction have charge and mass, and the products leave charge [z] and mass
    [a] of target and projectile.  Together these are not protons alone. *)
Definition leaves (r : rcode) (z a : Z) : Prop :=
  exists tz ta pz pa zs sa,
    nuclide_is (rc_target r) tz ta /\ weighs (rc_projectile r) pz pa /\ weigh_all (rc_products r) zs sa /\
    (tz + pz < ta + pa)%Z /\ z = (tz + pz - zs)%Z /\ a = (ta + pa - sa)%Z.
(** What is left is the residual that is written; or none is written and something is left. *)
Definition balances (r : rcode) : Prop :=
  exists z a, leaves r z a /\
    match rc_residual r with
    | Some n => nuclide_is n z a
    | None => (0 <= z < 119)%Z /\ (z <> 0 \/ a <> 0)%Z
    end.

(** A piece of a combination and the element it becomes. *)
Definition telling (piece : ptree) (x : element) : Prop :=
  match piece with
  | PTok op => x = EOp op
  | PGroup l => exists r rx R, l = reaction_tree r /\ x = ERxn rx /\ tells r rx R
  end.
