(** Reaction codes with several states of the residual nucleus: (79-AU-197(N,2N)79-AU-196-M/G,,SIG/RAT)
    stands for ((79-AU-197(N,2N)79-AU-196-M,,SIG/RAT)/(79-AU-197(N,2N)79-AU-196-G,,SIG/RAT)). *)
From Coq Require Import String List Ascii NArith ZArith Bool Arith.
From Verif.Model Require Import Py Dicts Particle Reaction.
From Verif.Spec Require Import Text Codes General Balance Known GeneralKnown.
Import ListNotations.
Local Open Scope string_scope.
Local Open Scope list_scope.
Local Open Scope nat_scope.

(** The nuclide in the state [i] alone; the reaction that leads to it, with the quantity [q]. *)
Definition alone (n : nuclide) (i : isomer) : nuclide :=
  mkNuclide (n_Z n) (n_sym n) (n_A n) [mkIsomer "-"%char (i_letter i) (i_number i)].
Definition single (r : gcode) (n : nuclide) (q : list ascii) (i : isomer) : gcode :=
  mkGcode (gc_target r) (gc_projectile r) (gc_products r) (Some (Nucleus (alone n i))) [[]; [Bare q]].

(** One reaction for each state, the operators between them. *)
Definition states_apart (r : gcode) (n : nuclide) (q : list ascii) : list ptree :=
  match n_iso n with
  | [] => []
  | i :: l => PGroup (general_tree (single r n q i)) ::
              flat_map (fun j => [PTok [i_op j]; PGroup (general_tree (single r n q j))]) l
  end.

(** A metastable state (M) and another state, which may be the ground state (G) or all of them (T). *)
Definition several_states (l : list isomer) : Prop :=
  exists a b i j, a <> b /\ nth_error l a = Some i /\ nth_error l b = Some j /\ i_letter i = "M"%char /\ In (i_letter j) (tx "MGT").

(** The reactions that are taken apart: to states M, M0 to M5, G and so on of a nuclide, with plus, minus or
    a slash between them, at most one isomer part in the target, none in the projectile, and
    particles or processes as products. *)
Record state_math (r : gcode) (n : nuclide) (q : list ascii) : Prop := {
  sm_residual : gc_residual r = Some (Nucleus n);
  sm_states : several_states (n_iso n);
  sm_operators : Forall (fun i => In (i_op i) (tx "+-/")) (tl (n_iso n));
  sm_numbers : Forall (fun i => i_number i = [] \/ exists d, i_number i = [d] /\ In d (tx "012345")) (n_iso n);
  sm_target : match gc_target r with
              | Nucleus t => n_iso t = [] \/ exists i, n_iso t = [i] /\ i_op i = "-"%char
              | Compound _ => True
              | Sum _ => False
              end;
  sm_projectile : match gc_projectile r with CNuclide p => n_iso p = [] | _ => True end;
  sm_products : Forall (fun o => match o with Out (CWord _) | Out (CMany _ _) => True | _ => False end) (gc_products r);
  sm_quantity : exists more, general_quantities r = q :: more;
  sm_known : Forall (fun i => known_general (single r n q i)) (n_iso n) }.

(** The pieces of a combination of reactions some of which have several states, and what they become. *)
Inductive piece_of (particles compounds : list (list ascii)) : list ptree -> Prop :=
| piece_known : forall r, good_general particles compounds r -> known_general r -> piece_of particles compounds (general_tree r)
| piece_states : forall r n q, good_general particles compounds r -> state_math r n q -> piece_of particles compounds (general_tree r).
Definition saying_states (piece : ptree) (x : element) : Prop :=
  gsaying piece x \/
  exists r n q data, piece = PGroup (general_tree r) /\ state_math r n q /\
    x = EIso (EOp (tx "(") :: data ++ [EOp (tx ")")]) /\ Forall2 gsaying (states_apart r n q) data.
