(** Reaction codes in full: targets and residual nuclei that are chemical compounds or stand for
    a sum over nuclei, products that are preceded by an X, quantities in parentheses.  As in
    Spec/Codes.v only [ptree] is taken from the model. *)
From Coq Require Import String List Ascii NArith ZArith Bool Arith.
From Verif.Model Require Import Particle.
From Verif.Spec Require Import Text Codes.
Import ListNotations.
Local Open Scope string_scope.
Local Open Scope list_scope.

(** 26-FE-56; 26-FE-OXI; ELEM/MASS *)
Inductive spot :=
| Nucleus (n : nuclide)
| Compound (k : list ascii)
| Sum (w : list ascii).
Definition spot_tokens (x : spot) : list (list ascii) :=
  match x with Nucleus n => nuclide_tokens n | Compound k => [k] | Sum w => [w] end.
Definition spot_tree (x : spot) : ptree :=
  match x with Nucleus n => nuclide_tree n | Compound k => PGroup [PTok k] | Sum w => PTok w end.

(** N, 2N, 2-HE-4; XN *)
Inductive outgoing :=
| Out (x : pcode)
| Extra (w : list ascii).
Definition outgoing_tokens (o : outgoing) : list (list ascii) :=
  match o with Out x => code_tokens x | Extra w => [tx "X"; w] end.
Definition outgoing_trees (o : outgoing) : list ptree :=
  match o with Out x => [code_tree x] | Extra w => [PTok (tx "X"); PTok w] end.

(** CUM; (CUM) *)
Inductive remark :=
| Bare (w : list ascii)
| Paren (w : list ascii).
Definition remark_tokens (m : remark) : list (list ascii) :=
  match m with Bare w => [w] | Paren w => [tx "("; w; tx ")"] end.
Definition remark_word (m : remark) : list ascii := match m with Bare w | Paren w => w end.

Record gcode := mkGcode {
  gc_target : spot; gc_projectile : pcode; gc_products : list outgoing; gc_residual : option spot;
  gc_quantities : list (list remark) }.               (* what follows each comma *)

Definition gprocess_tokens (r : gcode) : list (list ascii) :=
  spot_tokens (gc_target r) ++ [tx "("] ++ code_tokens (gc_projectile r) ++ [tx ","] ++
  separated (tx "+") (map outgoing_tokens (gc_products r)) ++ [tx ")"] ++
  match gc_residual r with Some n => spot_tokens n | None => [] end.
Definition part_tokens (q : list remark) : list (list ascii) := tx "," :: flat_map remark_tokens q.
Definition general_tokens (r : gcode) : list (list ascii) :=
  [tx "("] ++ gprocess_tokens r ++ flat_map part_tokens (gc_quantities r) ++ [tx ")"].

Definition gprocess_tree (r : gcode) : list ptree :=
  spot_tree (gc_target r) :: code_tree (gc_projectile r) :: flat_map outgoing_trees (gc_products r) ++
  match gc_residual r with Some n => [spot_tree n] | None => [] end.
Definition general_quantities (r : gcode) : list (list ascii) :=
  flat_map (map remark_word) (gc_quantities r).
Definition general_tree (r : gcode) : list ptree :=
  PGroup (gprocess_tree r) :: map PTok (general_quantities r).

(** The codes that are read as they are written.  [particles] and [compounds] are the codes the
    two dictionaries list. *)
Definition target_sums : list (list ascii) := [tx "ELEM/MASS"; tx "MASS"; tx "ELEM"].
Definition residual_sums : list (list ascii) := target_sums ++ [tx "NPART"].
Definition good_spot (sums compounds : list (list ascii)) (x : spot) : Prop :=
  match x with
  | Nucleus n => good_nuclide n
  | Compound k => In k compounds
  | Sum w => In w sums
  end.
(** 0 is nothing; X and a listed particle that is not the beginning of another one. *)
Definition good_outgoing (particles : list (list ascii)) (o : outgoing) : Prop :=
  match o with
  | Out x => good_product particles x \/ x = CWord (tx "0")
  | Extra w => In w particles /\ word w /\ forall t, In (w ++ t) particles -> Forall (fun c => letter c \/ digit c) t
  end.
Definition good_outgoings (particles : list (list ascii)) (l : list outgoing) : Prop :=
  l <> [] /\ Forall (good_outgoing particles) l /\
  forall a x b, l = a ++ x :: b -> b <> [] -> forall n, x <> Out (CNuclide n).
(** Two words without parentheses would run together. *)
Definition good_part (q : list remark) : Prop :=
  (forall m, In m q -> nonempty quantity_char (remark_word m)) /\
  forall a u v b, q <> a ++ Bare u :: Bare v :: b.
Definition good_general (particles compounds : list (list ascii)) (r : gcode) : Prop :=
  good_spot target_sums compounds (gc_target r) /\ good_projectile (gc_projectile r) /\
  good_outgoings particles (gc_products r) /\
  (forall x, gc_residual r = Some x -> good_spot residual_sums compounds x) /\
  Forall good_part (gc_quantities r).

(** [written particles compounds ts l]: the tokens [ts] are a reaction code, which is to be read
    as the pieces [l]. *)
Definition written (particles compounds : list (list ascii)) (ts : list (list ascii)) (l : list ptree) : Prop :=
  exists r, good_general particles compounds r /\ ts = general_tokens r /\ l = general_tree r.

(** The codes of Spec/Codes.v among them. *)
Definition general (r : rcode) : gcode :=
  mkGcode (Nucleus (rc_target r)) (rc_projectile r) (map Out (rc_products r)) (option_map Nucleus (rc_residual r))
    (map (fun q => match q with Some w => [Bare w] | None => [] end) (rc_quantities r)).
