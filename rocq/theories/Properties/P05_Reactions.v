(** Properties C51-C54: residual nuclei and reaction combinations. *)
From Coq Require Import String List Ascii NArith ZArith Bool Arith.
From Verif.Model Require Import Py Dicts Particle Reaction.
From Verif.Spec Require Import Text Nuclear.
From Verif.Proofs Require Import StrLemmas DictLemmas ReactionLemmas.
Import ListNotations.
Local Open Scope list_scope.

(** A particle grammar that takes any code as it is, for the examples. *)
Definition any_particle : grammars :=
  mkGrammars (fun s => Some [PTok s]) (fun _ => None) (fun _ => None) (fun _ => None) (fun _ => None)
             (fun _ => None) (fun _ => None) (fun _ => None) (fun _ => None) (fun _ => None) (fun _ => None).
Definition nuclide (z s a : string) : ptree := PGroup [PTok (lit z); PTok (lit s); PTok (lit a)].

(** C51.  Whatever the target, projectile and products: if the residual is a particle or nucleus
    and the target was not simply left alone, then residual plus remaining products carry the
    charge and baryon number of target plus projectile.  (Excluded: total charge and baryon
    number both zero, as in p + anti-p; see below.) *)
Theorem C51_residual_conserves_partial : forall g compounds ign xl p r tz ta pz pa,
  parses_as g "E" ->
  process_of_results g compounds ign xl = Ok p ->
  p_residual p = RPart r -> has_nucleons (RPart r) ->
  (forall c, In c scattering_codes -> p_products p <> [RStr c]) ->
  prodZ (p_targ p) = Ok tz -> prodA (p_targ p) = Ok ta ->
  prodZ (p_proj p) = Ok pz -> prodA (p_proj p) = Ok pa ->
  ~ (tz + pz = 0 /\ ta + pa = 0)%Z ->
  nuclear_sum (RPart r :: p_products p) (tz + pz) (ta + pa).
Proof. exact residual_conserves. Qed.
Print Assumptions C51_residual_conserves_partial.

(** 92-U-238(N,2N+P) leaves 91-PA-236, computed from the rest. *)
Example C51_example : exists p r,
  process_of_results any_particle [] false
    [nuclide "92" "U" "238"; PTok (lit "N"); PGroup [PTok (lit "2"); PTok (lit "N")]; PTok (lit "P")] = Ok p /\
  p_residual p = RPart r /\ getZ r = Ok 91%Z /\ getA r = Ok 236%Z /\ length (p_products p) = 2.
Proof. eexists. eexists. repeat split; vm_compute; reflexivity. Qed.

(** The excluded case is really wrong: for 1-H-1(AP,PIP) the positive pion itself becomes the
    residual although the total charge is zero. *)
Theorem C51_zero_total_refuted : exists g xl p r,
  parses_as g "E" /\ process_of_results g [] false xl = Ok p /\ p_residual p = RPart r /\
  p_products p = [] /\ prodZ (p_targ p) = Ok 1%Z /\ prodZ (p_proj p) = Ok (-1)%Z /\ getZ r = Ok 1%Z.
Proof.
  exists any_particle, [nuclide "1" "H" "1"; PTok (lit "AP"); PTok (lit "PIP")].
  eexists. eexists. repeat split; vm_compute; reflexivity.
Qed.
Print Assumptions C51_zero_total_refuted.

(** C52 *)
Theorem C52_scattering_leaves_target : forall g compounds ign xl p c,
  process_of_results g compounds ign xl = Ok p ->
  In c scattering_codes -> In (PTok c) (skipn 2 xl) ->
  p_residual p = p_targ p /\
  exists c', In c' scattering_codes /\ In (PTok c') (skipn 2 xl) /\ p_products p = [RStr c'].
Proof. exact scattering_leaves_target. Qed.
Print Assumptions C52_scattering_leaves_target.

Example C52_example : exists p,
  process_of_results any_particle [] false [nuclide "92" "U" "235"; PTok (lit "N"); PTok (lit "INL")] = Ok p /\
  In (lit "INL") scattering_codes /\
  p_residual p = RPart (PNucleus (lit "92") (lit "U") (lit "235")) /\ p_type p = lit "Inelastic".
Proof. eexists. split; [vm_compute; reflexivity|]. split; [vm_compute; tauto|]. split; vm_compute; reflexivity. Qed.

(** C53: for target(projectile,G) with more nucleons than protons in total. *)
Theorem C53_capture_residual_partial : forall g compounds ign t j tp jp tz ta pz pa,
  parses_as g "G" ->
  setParticleType g ign t = Ok (RPart tp) -> setParticleType g ign j = Ok (RPart jp) ->
  getZ tp = Ok tz -> getA tp = Ok ta -> getZ jp = Ok pz -> getA jp = Ok pa ->
  ta <> 0%Z -> (0 <= tz + pz < 119)%Z -> (tz + pz < ta + pa)%Z ->
  exists p z s a, process_of_results g compounds ign [t; j; PTok (lit "G")] = Ok p /\
    p_residual p = RPart (PNucleus z s a) /\
    getZ (PNucleus z s a) = Ok (tz + pz)%Z /\ getA (PNucleus z s a) = Ok (ta + pa)%Z /\
    exists sym, endl_ZSymbol (tz + pz) = Some sym /\ s = capitalize sym.
Proof. exact capture_residual. Qed.
Print Assumptions C53_capture_residual_partial.

Example C53_example : exists p,
  process_of_results any_particle [] false [nuclide "92" "U" "238"; PTok (lit "N"); PTok (lit "G")] = Ok p /\
  p_residual p = RPart (PNucleus (lit "92") (lit "U") (lit "239")).
Proof. eexists. split; vm_compute; reflexivity. Qed.

(** 1-H-1(P,G) has no residual at all. *)
Theorem C53_light_capture_refuted : exists g p,
  parses_as g "G" /\ parses_as g "P" /\
  process_of_results g [] false [nuclide "1" "H" "1"; PTok (lit "P"); PTok (lit "G")] = Ok p /\
  prodZ (p_targ p) = Ok 1%Z /\ prodA (p_targ p) = Ok 1%Z /\ p_residual p = RNone.
Proof. exists any_particle. eexists. repeat split; vm_compute; reflexivity. Qed.
Print Assumptions C53_light_capture_refuted.

(** C54.  The elements of a combination are the terms of the parsed expression, in order. *)
Theorem C54_combination_elements : forall depth g compounds x data,
  getMeasurementType depth g compounds x = Ok (MComb data) ->
  Forall2 (fun t e =>
    (exists s, t = PTok s /\ In s operators /\ e = EOp s) \/
    ((forall s, t = PTok s -> ~ In s operators) /\
     ((exists r, X4Reaction g compounds false t = Ok r /\ e = ERxn r) \/
      (X4Reaction g compounds false t = Raise IsomerMathParsingError /\ exists d, e = EIso d)))) x data.
Proof. exact combination_elements. Qed.
Print Assumptions C54_combination_elements.

(** Reaction list and schematic equation describe the combination together. *)
Theorem C54_equation_spells_partial : forall m data, m = MComb data \/ m = MIso data ->
  (forall d, ~ In (EIso d) data) ->
  exists eq, getEquation_schematic m = inr eq /\ spells 0 data (getX4ReactionList m) eq.
Proof. exact equation_spells. Qed.
Print Assumptions C54_equation_spells_partial.

Definition C54_rxn (r : string) : reaction :=
  mkReaction (mkProcess (RStr (lit r)) RNone [] RNone []) [].
Example C54_example :
  let m := MComb [ERxn (C54_rxn "a"); EOp (lit "/"); ERxn (C54_rxn "b")] in
  getX4ReactionList m = [C54_rxn "a"; C54_rxn "b"] /\
  getEquation_schematic m = inr [lit "rxn 0"; lit "/"; lit "rxn 1"].
Proof. split; reflexivity. Qed.

(** The combination's own list of reactions goes from left to right, through nested isomer
    combinations as well. *)
Theorem C54_all_reactions : forall data l, getReactionList data = l <-> left_to_right data l.
Proof. exact reaction_list_order. Qed.
Print Assumptions C54_all_reactions.

Example C54_all_example :
  getReactionList [EIso [ERxn (C54_rxn "a"); EOp (lit "+"); ERxn (C54_rxn "b")]; EOp (lit "/"); ERxn (C54_rxn "c")]
  = [C54_rxn "a"; C54_rxn "b"; C54_rxn "c"].
Proof. reflexivity. Qed.

(** With an isomer combination among the terms the numbers no longer fit the list. *)
Theorem C54_isomer_terms_refuted : exists r s, 
  let m := MComb [EIso [ERxn r]; EOp (lit "/"); ERxn s] in
  getX4ReactionList m = [s] /\ getEquation_schematic m = inr [lit "rxn 0"; lit "/"; lit "rxn 1"].
Proof. exists (C54_rxn "a"), (C54_rxn "b"). split; reflexivity. Qed.
Print Assumptions C54_isomer_terms_refuted.
