(** Measurements that can be put into words, and the dictionaries this takes. *)
From Coq Require Import String List Ascii NArith ZArith Bool Arith.
From Verif.Model Require Import Py Dicts Particle Reaction Grammars Field Dataset.
From Verif.Spec Require Import GeneralKnown WellWritten.
Import ListNotations.

(** The reactions a measurement is made of. *)
Definition reactions_in (m : measurement) : list reaction :=
  match m with MRxn r => [r] | MComb data | MIso data => getReactionList data end.
(** Not a particle of unknown number (XN). *)
Definition counted (p : product) : Prop := forall sym z a, p <> RPart (PParticle NX sym z a).
(** What follows the commas are words, and target, projectile and residual are counted. *)
Record proper (r : reaction) : Prop := {
  proper_words : forall q, In q (r_quant r) -> exists w, q = PTok w;
  proper_target : counted (p_targ (r_process r));
  proper_projectile : counted (p_proj (r_process r));
  proper_residual : counted (p_residual (r_process r)) }.

(** The compounds of the grammar are in the dictionary of compounds; every row has a name. *)
Record naming (c : codes) (e : env) (nm : names) : Prop := {
  naming_grammars : e_g e = x4grammars c;
  naming_compounds : has_names (c_compounds c) (nm_compounds nm);
  naming_quantities : rows_filled (nm_quantities nm);
  naming_modifiers : rows_filled (nm_modifiers nm) }.

(** The measurements of a data set: its reaction, and the reactions of its monitors. *)
Definition measurements (d : dataset) : list measurement :=
  match ds_reaction d with Some (m, _) => [m] | None => [] end ++
  match ds_monitor d with Some l => flat_map (fun x => match fst (fst x) with Some m => [m] | None => [] end) l | None => [] end.
