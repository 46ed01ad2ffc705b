(** Property C86: reactions of known codes are read. *)
From Coq Require Import String List Ascii NArith ZArith Bool Arith.
From Verif.Model Require Import Py Dicts Particle Reaction Field Pyparsing Grammars Shipped.
From Verif.Spec Require Import Text Codes General Balance Known.
From Verif.Proofs Require Import ShippedLemmas KnownLemmas KnownCheck.
From Verif.Properties Require Import P11_Grammars.
Import ListNotations.
Local Open Scope string_scope.
Local Open Scope list_scope.
Local Open Scope nat_scope.

(** ** C86: a reaction all of whose codes are known is read, and says what is written *)

Theorem C86_read : forall c e r line text,
  Forall particle_key (c_particles c) -> Forall compound_key (c_compounds c) -> e_g e = x4grammars c ->
  good_reaction (c_particles c) r -> in_field (reaction_tokens r) line text -> known_reaction r ->
  exists rx T J objs, reaction_of_text e text = Ok (MRxn rx, PTok line) /\ says r rx T J /\
    Forall2 product_meaning (rc_products r ++ match rc_residual r with Some n => [CNuclide n] | None => [] end) objs /\
    (~ Exists process_code (rc_products r) -> p_products (r_process rx) = objs \/ p_products (r_process rx) ++ [p_residual (r_process rx)] = objs).
Proof. exact known_text. Qed.
Print Assumptions C86_read.

(** One process in the place of the products, no residual: it is the only product; scattering
    leaves the target, anything else leaves nothing. *)
Theorem C86_process : forall c e r line text w name,
  Forall particle_key (c_particles c) -> Forall compound_key (c_compounds c) -> e_g e = x4grammars c ->
  good_reaction (c_particles c) r -> in_field (reaction_tokens r) line text ->
  known_nuclide (rc_target r) -> known_projectile (rc_projectile r) -> rc_products r = [CWord (tx w)] -> In (w, name) process_codes ->
  rc_residual r = None -> real_target (rc_target r) -> rc_projectile r <> CWord (tx "AP") ->
  exists rx T J, reaction_of_text e text = Ok (MRxn rx, PTok line) /\ says r rx T J /\
    p_products (r_process rx) = [RStr (tx w)] /\
    p_residual (r_process rx) = (if scattering w then RPart T else RNone) /\
    forall compounds, exists t j, pretty compounds T = Ok t /\ pretty compounds J = Ok j /\
      process_str compounds (r_process rx) =
        Ok (t ++ tx "(" ++ j ++ tx "," ++ tx name ++ tx ")" ++ if scattering w then t else []).
Proof. exact process_text. Qed.
Print Assumptions C86_process.

(** Combinations of such reactions. *)
Theorem C86_combination : forall c e ts l line text,
  Forall particle_key (c_particles c) -> Forall compound_key (c_compounds c) -> e_g e = x4grammars c ->
  cexpr (written (c_particles c) (c_compounds c)) ts l -> in_field (tx "(" :: ts ++ [tx ")"]) line text ->
  (forall q, In (PGroup q) l -> exists r, good_reaction (c_particles c) r /\ known_reaction r /\ q = reaction_tree r) ->
  exists data, reaction_of_text e text = Ok (MComb (EOp (tx "(") :: data ++ [EOp (tx ")")]), PTok line) /\ Forall2 saying l data.
Proof.
  intros c e ts l line text KP KC EG C F B. destruct (known_combination c e ts l line text KP KC EG C F B) as (data & H & S & _). eauto.
Qed.
Print Assumptions C86_combination.

Definition reads (r : rcode) (line text : list ascii) : Prop :=
  good_reaction (c_particles shipped) r /\ known_reaction r /\ in_field (reaction_tokens r) line text.
Definition sig (t : nuclide) (j : string) (p : string) (q : option nuclide) : rcode :=
  mkRcode t (CWord (tx j)) [CWord (tx p)] q [None; Some (tx "SIG")].
Definition iron_total : rcode := sig (plain "26" "FE" "56") "N" "TOT" None.
Definition iron_elastic : rcode := sig (plain "26" "FE" "0") "N" "EL" (Some (plain "26" "FE" "0")).
Definition indium : rcode :=
  sig (plain "49" "IN" "115") "N" "INL" (Some (mkNuclide (tx "49") (tx "IN") (tx "115") [mkIsomer "-"%char "M"%char []])).
Definition uranium : rcode := sig (plain "92" "U" "235") "N" "F" None.
Definition decay : rcode := sig (plain "98" "CF" "252") "0" "F" None.
Definition pions : rcode :=
  mkRcode (plain "6" "C" "12") (CNuclide (plain "2" "HE" "4")) [CWord (tx "P"); CWord (tx "PIN")] None [None; Some (tx "SIG")].

Example C86_reads :
  reads iron_total (tx "thick sample") (tx "(26-FE-56(N,TOT),,SIG)" ++ tx "  " ++ tx "thick sample") /\
  reads iron_elastic [] (tx "(26-FE-0(N,EL)26-FE-0,,SIG)") /\ reads indium [] (tx "(49-IN-115(N,INL)49-IN-115-M,,SIG)") /\
  reads uranium [] (tx "(92-U-235(N,F),,SIG)") /\ reads decay [] (tx "(98-CF-252(0,F),,SIG)") /\
  reads pions [] (tx "(6-C-12(2-HE-4,P+PIN),,SIG)").
Proof.
  assert (R : forall r s w k, reactionb (c_particles shipped) r && knownb r && in_fieldb (reaction_tokens r) s w k = true -> reads r k (s ++ w ++ k)).
  { intros r s w k H. rewrite !andb_true_iff in H. destruct H as [[H1 H2] H3].
    split; [now apply reactionb_ok|]. split; [now apply knownb_ok|now apply in_fieldb_ok]. }
  split; [apply R; vm_compute; reflexivity|].
  split; [apply (R _ (tx "(26-FE-0(N,EL)26-FE-0,,SIG)") [] []); vm_compute; reflexivity|].
  split; [apply (R _ (tx "(49-IN-115(N,INL)49-IN-115-M,,SIG)") [] []); vm_compute; reflexivity|].
  split; [apply (R _ (tx "(92-U-235(N,F),,SIG)") [] []); vm_compute; reflexivity|].
  split; [apply (R _ (tx "(98-CF-252(0,F),,SIG)") [] []); vm_compute; reflexivity|].
  apply (R _ (tx "(6-C-12(2-HE-4,P+PIN),,SIG)") [] []); vm_compute; reflexivity.
Qed.
Example C86_total :
  match reaction_of_text e0 (tx "(26-FE-56(N,TOT),,SIG)  thick sample") with
  | Ok (MRxn rx, PTok line) => line = tx "thick sample" /\ p_products (r_process rx) = [RStr (tx "TOT")] /\
      p_residual (r_process rx) = RNone /\ process_str [] (r_process rx) = Ok (tx "56Fe(n,Total)")
  | _ => False
  end.
Proof. vm_compute. auto. Qed.
Example C86_elastic :
  match reaction_of_text e0 (tx "(26-FE-0(N,EL),,SIG)") with
  | Ok (MRxn rx, PTok []) => process_str [] (r_process rx) = Ok (tx "natFe(n,Elastic)natFe")
  | _ => False
  end.
Proof. vm_compute. reflexivity. Qed.
Example C86_ratio : exists data,
  reaction_of_text e0 (tx "((92-U-235(N,F),,SIG)/(26-FE-56(N,TOT),,SIG))") = Ok (MComb data, PTok []).
Proof. vm_compute. eauto. Qed.

(** An antiproton on hydrogen: the charges and masses add up to nothing, and the process is taken
    for what is left. *)
Theorem C86_antiproton_refuted : exists r rx,
  reads r [] (tx "(1-H-1(AP,TOT),,SIG)") /\ reaction_of_text e0 (tx "(1-H-1(AP,TOT),,SIG)") = Ok (MRxn rx, PTok []) /\
  rc_products r = [CWord (tx "TOT")] /\ p_products (r_process rx) = [] /\ p_residual (r_process rx) = RStr (tx "TOT").
Proof.
  exists (sig (plain "1" "H" "1") "AP" "TOT" None). eexists. split.
  { split; [apply reactionb_ok; vm_compute; reflexivity|]. split; [apply knownb_ok; vm_compute; reflexivity|].
    apply (in_fieldb_ok _ (tx "(1-H-1(AP,TOT),,SIG)") [] []). vm_compute. reflexivity. }
  split; [vm_compute; reflexivity|]. split; [reflexivity|]. split; reflexivity.
Qed.
Print Assumptions C86_antiproton_refuted.
