(** What the codes of Spec/General.v stand for. *)
From Coq Require Import String List Ascii NArith ZArith Bool Arith.
From Verif.Model Require Import Py Dicts Particle Reaction.
From Verif.Spec Require Import Text Codes General Balance Known.
Import ListNotations.
Local Open Scope string_scope.
Local Open Scope list_scope.
Local Open Scope nat_scope.

(** 26-FE-OXI: the charge number and the symbol of the element, then the compound. *)
Definition compound_of (k z s : list ascii) : Prop :=
  exists t, k = z ++ tx "-" ++ s ++ tx "-" ++ t /\ nonempty digit z /\ nonempty letter s.

(** A nucleus, a compound, or a sum over nuclei. *)
Inductive spot_object : spot -> particle -> Prop :=
| object_nucleus : forall n p, nuclide_object n p -> spot_object (Nucleus n) p
| object_compound : forall k z s zn, compound_of k z s -> number_is z zn -> spot_object (Compound k) (PCompound k s zn)
| object_sum : forall w, spot_object (Sum w) (PVariable w).
(** XN is an X, then a neutron. *)
Inductive outgoing_objects : outgoing -> list product -> Prop :=
| objects_out : forall x p, product_meaning x p -> outgoing_objects (Out x) [p]
| objects_extra : forall w z a, In (w, (z, a)) particle_codes ->
    outgoing_objects (Extra (tx w)) [RStr (tx "X"); RPart (PParticle (NInt 1) (tx w) z a)].
Inductive residual_objects : option spot -> list product -> Prop :=
| residual_none : residual_objects None []
| residual_some : forall x p, spot_object x p -> residual_objects (Some x) [RPart p].

(** Every code is known. *)
Definition known_spot (x : spot) : Prop := match x with Nucleus n => known_nuclide n | _ => True end.
Definition known_outgoing (o : outgoing) : Prop :=
  match o with Out x => known_product x | Extra w => exists c, In c (map fst particle_codes) /\ w = tx c end.

(** Charge numbers; sums are given an impossible one. *)
Inductive spot_charge : spot -> Z -> Prop :=
| charge_of_nucleus : forall n z, number_is (n_Z n) z -> spot_charge (Nucleus n) z
| charge_of_compound : forall k z s zn, compound_of k z s -> number_is z zn -> spot_charge (Compound k) zn
| charge_of_sum : forall w, spot_charge (Sum w) (-3000).
Inductive left_charge : option spot -> Z -> Prop :=
| left_none : left_charge None 0
| left_some : forall x z, spot_charge x z -> left_charge (Some x) z.
Inductive outgoing_charges : list outgoing -> Z -> Prop :=
| outgoing_nil : outgoing_charges [] 0
| outgoing_cons : forall x l z zs, charge x z -> outgoing_charges l zs -> outgoing_charges (Out x :: l) (z + zs).

(** A process, or X. *)
Definition vague (o : outgoing) : Prop := match o with Out x => process_code x | Extra _ => True end.

(** A process that leaves the target what it is. *)
Definition scatters (o : outgoing) : Prop := exists w, scattering w = true /\ o = Out (CWord (tx w)).

Record known_general (r : gcode) : Prop := {
  kg_target : known_spot (gc_target r);
  kg_projectile : known_projectile (gc_projectile r);
  kg_products : Forall known_outgoing (gc_products r);
  kg_residual : forall x, gc_residual r = Some x -> known_spot x;
  (** what is left is not asked for, or is of the charge of an element, or a sum is involved *)
  kg_left : Exists vague (gc_products r) \/ (exists k, gc_residual r = Some (Compound k)) \/
    exists zt zj zs zr, spot_charge (gc_target r) zt /\ charge (gc_projectile r) zj /\ outgoing_charges (gc_products r) zs /\
      left_charge (gc_residual r) zr /\ (0 <= zt + zj - (zs + zr) < 119 \/ 1000 < Z.abs (zt + zj - (zs + zr)))%Z }.

(** The products [out] and the residual [left] of a reaction on the target [T] of which the parts
    in place of the products are [objs]: scattering leaves the target; if one of them is a process or X,
    nothing is worked out; otherwise the last one may be what is left. *)
Record comes_out (r : gcode) (T : particle) (objs out : list product) (left : product) : Prop := {
  out_scattered : Exists scatters (gc_products r) ->
    exists w, scattering w = true /\ In (Out (CWord (tx w))) (gc_products r) /\ out = [RStr (tx w)] /\ left = RPart T;
  out_vague : Exists vague (gc_products r) -> ~ Exists scatters (gc_products r) ->
    (out = objs /\ left = RNone) \/ out ++ [left] = objs \/ exists s, left = RStr s;
  out_plain : ~ Exists vague (gc_products r) -> out = objs \/ out ++ [left] = objs }.

(** The dictionary has a name for each of the compounds. *)
Definition has_names (compounds : list (list ascii)) (d : x4dict) : Prop :=
  forall k, In k compounds -> exists row, dget str_eqb k d = Some row /\ row <> [].

(** What the reaction object [rx] says. *)
Record gsays (r : gcode) (rx : reaction) (T J : particle) : Prop := {
  gsays_target : p_targ (r_process rx) = RPart T /\ spot_object (gc_target r) T;
  gsays_projectile : p_proj (r_process rx) = RPart J /\ projectile_meaning (gc_projectile r) J;
  gsays_quantities : r_quant rx = map PTok (general_quantities r) }.
Definition gsaying (piece : ptree) (x : element) : Prop :=
  match piece with
  | PTok op => x = EOp op
  | PGroup l => exists r rx T J pss rs, l = general_tree r /\ x = ERxn rx /\ gsays r rx T J /\
      Forall2 outgoing_objects (gc_products r) pss /\ residual_objects (gc_residual r) rs /\
      comes_out r T (concat pss ++ rs) (p_products (r_process rx)) (p_residual (r_process rx))
  end.

(** What is printed: a process by its name, [d] being the dictionary of compounds. *)
Inductive shown_as (d : x4dict) : product -> list ascii -> Prop :=
| shown_process : forall w name, In (w, name) process_codes -> shown_as d (RStr (tx w)) (tx name)
| shown_part : forall p t, pretty d p = Ok t -> shown_as d (RPart p) t.
(** A nothing is not printed; a process that is taken for what is left is printed as it is written. *)
Inductive left_shown (d : x4dict) : product -> list ascii -> Prop :=
| left_nothing : left_shown d RNone []
| left_process : forall s, left_shown d (RStr s) s
| left_part : forall p t, pretty d p = Ok t -> left_shown d (RPart p) t.
(** A compound by the name in the dictionary, a sum by its code, capitalised. *)
Definition spot_name (d : x4dict) (x : spot) (t : list ascii) : Prop :=
  match x with
  | Nucleus n => n_iso n = [] /\
      ((n_A n <> tx "0" /\ capitalize (n_sym n) <> tx "Nn" /\ t = n_A n ++ capitalize (n_sym n)) \/ (n_A n = tx "0" /\ t = tx "nat" ++ capitalize (n_sym n)))
  | Compound k => exists more, dget str_eqb k d = Some (t :: more)
  | Sum w => In w residual_sums /\ t = capitalize w
  end.
