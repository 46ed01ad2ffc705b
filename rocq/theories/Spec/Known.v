(** The codes of particles and processes that are known, and what they stand for. *)
From Coq Require Import String List Ascii NArith ZArith Bool Arith.
From Verif.Model Require Import Py Particle Reaction.
From Verif.Spec Require Import Text Codes Balance.
Import ListNotations.
Local Open Scope string_scope.
Local Open Scope list_scope.
Local Open Scope nat_scope.

(** Particles with their charge and mass number. *)
Definition particle_codes : list (string * (Z * Z)) :=
  [("G", (0, 0)); ("AR", (0, 0)); ("N", (0, 1)); ("P", (1, 1)); ("AP", (-1, -1)); ("AN", (0, -1)); ("H", (1, 1));
   ("D", (1, 2)); ("T", (1, 3)); ("A", (2, 4)); ("HE3", (2, 3)); ("HE2", (2, 2)); ("PI", (0, 0)); ("PI0", (0, 0)); ("P0", (0, 0));
   ("PIP", (1, 0)); ("ETA", (0, 0)); ("PIN", (-1, 0)); ("KP", (1, 0)); ("KN", (-1, 0)); ("E", (-1, 0)); ("B", (-1, 0))]%Z.

(** Processes and their names. *)
Definition process_codes : list (string * string) :=
  [("TOT", "Total"); ("EL", "Elastic"); ("ABS", "Absorption"); ("INL", "Inelastic"); ("TCC", "TotalChargeChanging");
   ("FUS", "Fusion"); ("NON", "Nonelastic"); ("SCT", "Scattering"); ("F", "Fission"); ("PAI", "PairProduction");
   ("THS", "ThermalScattering"); ("X", "Unspecified"); ("0", "None")].
(** Those that leave the target what it is. *)
Definition scattering (w : string) : bool := existsb (String.eqb w) ["EL"; "SCT"; "THS"; "INL"].

(** The state of an isomer: M1 is 1, M is 1, G is 0, T (all of them) is none. *)
Definition states (i : isomer) (l : list (list ascii)) : Prop :=
  (In (i_letter i) (tx "Mm") -> l = [match i_number i with [] => tx "1" | n => n end]) /\
  (i_letter i = "G"%char -> i_number i = [] -> l = [tx "0"]) /\
  (i_letter i = "T"%char -> i_number i = [] -> l = []).

(** A nuclide: of an isotope, of a natural element (mass number 0), of one isomer. *)
Inductive nuclide_object : nuclide -> particle -> Prop :=
| object_isotope : forall n, n_iso n = [] -> n_A n <> tx "0" -> nuclide_object n (PNucleus (n_Z n) (capitalize (n_sym n)) (n_A n))
| object_element : forall n, n_iso n = [] -> n_A n = tx "0" -> nuclide_object n (PElement (n_Z n) (capitalize (n_sym n)) (n_A n))
| object_isomer : forall n i l, n_iso n = [i] -> states i l -> nuclide_object n (PIsomer (n_Z n) (capitalize (n_sym n)) (n_A n) l).

(** What a code stands for as a projectile, and as a product. *)
Inductive projectile_meaning : pcode -> particle -> Prop :=
| means_none : projectile_meaning (CWord (tx "0")) (PParticle (NInt 0) (tx "0") 0 0)
| means_projectile : forall w z a, In (w, (z, a)) particle_codes -> projectile_meaning (CWord (tx w)) (PParticle (NInt 1) (tx w) z a)
| means_nuclide : forall n p, nuclide_object n p -> projectile_meaning (CNuclide n) p.
Inductive product_meaning : pcode -> product -> Prop :=
| means_process : forall w name, In (w, name) process_codes -> product_meaning (CWord (tx w)) (RStr (tx w))
| means_product : forall w z a, In (w, (z, a)) particle_codes -> product_meaning (CWord (tx w)) (RPart (PParticle (NInt 1) (tx w) z a))
| means_many : forall count k w z a, number_is count k -> In (w, (z, a)) particle_codes ->
    product_meaning (CMany count (tx w)) (RPart (PParticle (NInt k) (lower (tx w)) z a))
| means_residual : forall n p, nuclide_object n p -> product_meaning (CNuclide n) (RPart p).

(** Every code is known: a nuclide has at most one isomer part, the others are in the tables. *)
Definition known_nuclide (n : nuclide) : Prop := n_iso n = [] \/ exists i, n_iso n = [i].
Definition known_projectile (x : pcode) : Prop :=
  match x with
  | CNuclide n => known_nuclide n
  | CWord w => w = tx "0" \/ exists c, In c (map fst particle_codes) /\ w = tx c
  | CMany _ _ => False
  end.
Definition process_code (x : pcode) : Prop := exists c, In c (map fst process_codes) /\ x = CWord (tx c).
Definition known_product (x : pcode) : Prop :=
  process_code x \/
  match x with
  | CNuclide n => known_nuclide n
  | CWord w | CMany _ w => exists c, In c (map fst particle_codes) /\ w = tx c
  end.

(** Charge number of a code. *)
Inductive charge : pcode -> Z -> Prop :=
| charge_none : charge (CWord (tx "0")) 0
| charge_particle : forall w z a, In (w, (z, a)) particle_codes -> charge (CWord (tx w)) z
| charge_many : forall count k w z a, number_is count k -> In (w, (z, a)) particle_codes -> charge (CMany count (tx w)) (k * z)
| charge_nuclide : forall n z, number_is (n_Z n) z -> charge (CNuclide n) z.
Inductive charges : list pcode -> Z -> Prop :=
| charges_nil : charges [] 0
| charges_cons : forall x l z zs, charge x z -> charges l zs -> charges (x :: l) (z + zs).

Record known_reaction (r : rcode) : Prop := {
  known_t : known_nuclide (rc_target r);
  known_j : known_projectile (rc_projectile r);
  known_p : Forall known_product (rc_products r);
  known_r : forall n, rc_residual r = Some n -> known_nuclide n;
  (** a process among the products, or the charge they leave is that of an element *)
  known_left : Exists process_code (rc_products r) \/
    exists z zs, charges [CNuclide (rc_target r); rc_projectile r] z /\
      charges (rc_products r ++ match rc_residual r with Some n => [CNuclide n] | None => [] end) zs /\ (0 <= z - zs < 119)%Z }.

(** A target of charge at least 1, of a natural element or of mass number at least 1. *)
Definition real_target (n : nuclide) : Prop :=
  exists z, number_is (n_Z n) z /\ (1 <= z)%Z /\
    (n_iso n = [] /\ n_A n = tx "0" \/ exists a, number_is (n_A n) a /\ (1 <= a)%Z).

(** What the reaction object [rx] says of a reaction of known codes: target [T], projectile [J],
    quantities as written. *)
Record says (r : rcode) (rx : reaction) (T J : particle) : Prop := {
  says_target : p_targ (r_process rx) = RPart T /\ nuclide_object (rc_target r) T;
  says_projectile : p_proj (r_process rx) = RPart J /\ projectile_meaning (rc_projectile r) J;
  says_quantities : r_quant rx = map PTok (quantities r) }.

(** A piece of a combination and the element it becomes. *)
Definition saying (piece : ptree) (x : element) : Prop :=
  match piece with
  | PTok op => x = EOp op
  | PGroup l => exists r rx T J, l = reaction_tree r /\ x = ERxn rx /\ says r rx T J
  end.
