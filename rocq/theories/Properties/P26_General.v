(** Property C90: reactions on compounds, with sums of nuclei, X products and quantities in
    parentheses are read. *)
From Coq Require Import String List Ascii NArith ZArith Bool Arith.
From Verif.Model Require Import Py Dicts Particle Reaction Field Pyparsing Grammars Shipped.
From Verif.Spec Require Import Text Codes General Balance Known GeneralKnown.
From Verif.Proofs Require Import StrLemmas ShippedLemmas GrammarFields KnownLemmas KnownCheck GeneralLemmas GeneralCheck.
From Verif.Properties Require Import P11_Grammars P12_Names.
Import ListNotations.
Local Open Scope string_scope.
Local Open Scope list_scope.
Local Open Scope nat_scope.

(** ** C90: the codes that are not only of nuclei and particles *)

(** The pieces are those that are written, whatever the blanks between them and whatever follows. *)
Theorem C90_pieces : forall c r s k,
  Forall particle_key (c_particles c) -> Forall compound_key (c_compounds c) ->
  good_general (c_particles c) (c_compounds c) r -> spaced (general_tokens r) s -> ~ In (ascii_of_N 9) (s ++ k) ->
  g_reaction (x4grammars c) (s ++ k) = Some (general_tree r).
Proof. intros c r s k KP KC G SP T. apply (written_text c KP KC (general_tokens r)); auto. now exists r. Qed.
Print Assumptions C90_pieces.

(** The reaction object says what is written. *)
Theorem C90_read : forall c e r line text,
  Forall particle_key (c_particles c) -> Forall compound_key (c_compounds c) -> e_g e = x4grammars c ->
  has_names (c_compounds c) (e_compounds e) ->
  good_general (c_particles c) (c_compounds c) r -> known_general r -> in_field (general_tokens r) line text ->
  exists rx T J pss rs, reaction_of_text e text = Ok (MRxn rx, PTok line) /\ gsays r rx T J /\
    Forall2 outgoing_objects (gc_products r) pss /\ residual_objects (gc_residual r) rs /\
    comes_out r T (concat pss ++ rs) (p_products (r_process rx)) (p_residual (r_process rx)).
Proof. intros c e r line text KP KC. exact (general_text c KP KC e r line text). Qed.
Print Assumptions C90_read.

(** Its text: target(projectile,products)residual. *)
Theorem C90_text : forall c e r line text,
  Forall particle_key (c_particles c) -> Forall compound_key (c_compounds c) -> e_g e = x4grammars c ->
  has_names (c_compounds c) (e_compounds e) ->
  good_general (c_particles c) (c_compounds c) r -> known_general r -> in_field (general_tokens r) line text ->
  exists rx T J t j ns u, reaction_of_text e text = Ok (MRxn rx, PTok line) /\ gsays r rx T J /\
    pretty (e_compounds e) T = Ok t /\ pretty (e_compounds e) J = Ok j /\
    Forall2 (shown_as (e_compounds e)) (p_products (r_process rx)) ns /\ left_shown (e_compounds e) (p_residual (r_process rx)) u /\
    process_str (e_compounds e) (r_process rx) = Ok (t ++ tx "(" ++ j ++ tx "," ++ join (tx "+") ns ++ tx ")" ++ u).
Proof. intros c e r line text KP KC. exact (general_printed c KP KC e r line text). Qed.
Print Assumptions C90_text.
Theorem C90_names : forall d x p t, spot_object x p -> spot_name d x t -> pretty d p = Ok t.
Proof. exact spot_named. Qed.
Print Assumptions C90_names.

(** Combinations. *)
Theorem C90_combination : forall c e ts l line text,
  Forall particle_key (c_particles c) -> Forall compound_key (c_compounds c) -> e_g e = x4grammars c ->
  has_names (c_compounds c) (e_compounds e) ->
  cexpr (written (c_particles c) (c_compounds c)) ts l -> in_field (tx "(" :: ts ++ [tx ")"]) line text ->
  (forall q, In (PGroup q) l -> exists r, good_general (c_particles c) (c_compounds c) r /\ known_general r /\ q = general_tree r) ->
  exists data, reaction_of_text e text = Ok (MComb (EOp (tx "(") :: data ++ [EOp (tx ")")]), PTok line) /\ Forall2 gsaying l data.
Proof.
  intros c e ts l line text KP KC EG D C F B. destruct (general_combination c KP KC e ts l line text EG D C F B) as (data & H & S & _). eauto.
Qed.
Print Assumptions C90_combination.

(** *** Codes of the shipped dictionaries *)
Definition gsig (t : spot) (j : string) (p : list outgoing) (q : option spot) (m : list (list remark)) : gcode := mkGcode t (CWord (tx j)) p q m.
Definition proc (w : string) : outgoing := Out (CWord (tx w)).
Definition bareq (w : string) : list remark := [Bare (tx w)].
Definition oxide_elastic : gcode := gsig (Compound (tx "26-FE-OXI")) "N" [proc "EL"] (Some (Compound (tx "26-FE-OXI"))) [[]; bareq "DA"].
Definition water : gcode := gsig (Compound (tx "1-H-WTR")) "N" [proc "TOT"] None [[]; bareq "SIG"].
Definition yields : gcode := gsig (Nucleus (plain "92" "U" "235")) "N" [proc "F"] (Some (Sum (tx "ELEM/MASS"))) [[Paren (tx "CUM")]; bareq "FY"].
Definition neutrons : gcode := gsig (Nucleus (plain "26" "FE" "56")) "P" [Extra (tx "N")] None [[]; bareq "SIG"].
Definition chain : gcode := gsig (Nucleus (plain "92" "U" "235")) "N" [proc "F"] (Some (Sum (tx "MASS"))) [bareq "CHN"; bareq "FY"].

Definition greads (r : gcode) (line text : list ascii) : Prop :=
  good_general (c_particles shipped) (c_compounds shipped) r /\ known_general r /\ in_field (general_tokens r) line text.
Example C90_reads :
  greads oxide_elastic (tx "thick sample") (tx "(26-FE-OXI(N,EL)26-FE-OXI,,DA)" ++ tx "  " ++ tx "thick sample") /\
  greads water [] (tx "(1-H-WTR(N,TOT),,SIG)") /\ greads yields [] (tx "(92-U-235(N,F)ELEM/MASS,(CUM),FY)") /\
  greads neutrons [] (tx "(26-FE-56(P,XN),,SIG)") /\ greads chain [] (tx "(92-U-235(N,F) MASS,CHN,FY)").
Proof.
  assert (R : forall r s w k, good_generalb (c_particles shipped) (c_compounds shipped) r && known_generalb r && in_fieldb (general_tokens r) s w k = true -> greads r k (s ++ w ++ k)).
  { intros r s w k H. rewrite !andb_true_iff in H. destruct H as [[H1 H2] H3].
    split; [now apply good_generalb_ok|]. split; [now apply known_generalb_ok|now apply in_fieldb_ok]. }
  split; [apply R; vm_compute; reflexivity|].
  split; [apply (R _ (tx "(1-H-WTR(N,TOT),,SIG)") [] []); vm_compute; reflexivity|].
  split; [apply (R _ (tx "(92-U-235(N,F)ELEM/MASS,(CUM),FY)") [] []); vm_compute; reflexivity|].
  split; [apply (R _ (tx "(26-FE-56(P,XN),,SIG)") [] []); vm_compute; reflexivity|].
  apply (R _ (tx "(92-U-235(N,F) MASS,CHN,FY)") [] []); vm_compute; reflexivity.
Qed.
Example C90_named : has_names (c_compounds shipped) (e_compounds e1) /\ e_g e1 = x4grammars shipped.
Proof. split; [exact (all_named (tx "compound") [] dict09_keys)|reflexivity]. Qed.
Definition printed (text : string) : option (list ascii) :=
  match reaction_of_text e1 (tx text) with
  | Ok (MRxn rx, _) => match process_str (e_compounds e1) (r_process rx) with Ok t => Some t | Raise _ => None end
  | _ => None
  end.
Example C90_printed :
  map printed ["(26-FE-OXI(N,EL)26-FE-OXI,,DA)"; "(1-H-WTR(N,TOT),,SIG)"; "(92-U-235(N,F)ELEM/MASS,(CUM),FY)"; "(26-FE-56(P,XN),,SIG)"; "(92-U-235(N,F) MASS,CHN,FY)"] =
  map (fun s => Some (tx s)) ["compound(n,Elastic)compound"; "compound(n,Total)"; "235U(n,Fission+Elem/mass)"; "56Fe(p,Unspecified+n)"; "235U(n,Fission+Mass)"].
Proof. vm_compute. reflexivity. Qed.
Example C90_ratio :
  cexpr (written (c_particles shipped) (c_compounds shipped)) (general_tokens oxide_elastic ++ tx "/" :: general_tokens water)
    [PGroup (general_tree oxide_elastic); PTok (tx "/"); PGroup (general_tree water)].
Proof.
  destruct C90_reads as ((G1 & _) & (G2 & _) & _).
  apply ce_term, (ct_times _ (tx "/") _ [PGroup (general_tree oxide_elastic)]); [cbn; auto| |].
  - apply ct_factor, cf_reaction. exists oxide_elastic. auto.
  - apply cf_reaction. exists water. auto.
Qed.
Example C90_ratio_read : exists data,
  reaction_of_text e1 (tx "((26-FE-OXI(N,EL)26-FE-OXI,,DA)/(1-H-WTR(N,TOT),,SIG))") = Ok (MComb data, PTok []) /\ length data = 5.
Proof. eexists. split; vm_compute; reflexivity. Qed.
