(** Property C91: reactions to several states of the residual nucleus. *)
From Coq Require Import String List Ascii NArith ZArith Bool Arith.
From Verif.Model Require Import Py Dicts Particle Reaction Field Pyparsing Grammars Shipped.
From Verif.Spec Require Import Text Codes General Balance Known GeneralKnown IsomerMath WellWritten.
From Verif.Proofs Require Import StrLemmas ShippedLemmas GrammarFields KnownCheck GeneralLemmas GeneralCheck IsomerLemmas IsomerCheck.
From Verif.Properties Require Import P11_Grammars P12_Names P26_General.
Import ListNotations.
Local Open Scope string_scope.
Local Open Scope list_scope.
Local Open Scope nat_scope.

(** ** C91: the states of the residual nucleus are taken apart *)

(** One reaction for each state, in the order of the code and with its operators, each with the target,
    the projectile, the products and the first of the quantities. *)
Theorem C91_read : forall c e r n q line text,
  Forall particle_key (c_particles c) -> Forall compound_key (c_compounds c) -> e_g e = x4grammars c ->
  has_names (c_compounds c) (e_compounds e) -> 0 < e_depth e ->
  good_general (c_particles c) (c_compounds c) r -> state_math r n q -> in_field (general_tokens r) line text ->
  exists data, reaction_of_text e text = Ok (MIso (EOp (tx "(") :: data ++ [EOp (tx ")")]), PTok line) /\
    Forall2 gsaying (states_apart r n q) data.
Proof.
  intros c e r n q line text KP KC EG D DP G S F. destruct (states_text c KP KC e r n q line text EG D DP G S F) as (data & H & F2 & _). eauto.
Qed.
Print Assumptions C91_read.

(** Such reactions in combinations. *)
Theorem C91_combination : forall c e ts l line text,
  Forall particle_key (c_particles c) -> Forall compound_key (c_compounds c) -> e_g e = x4grammars c ->
  has_names (c_compounds c) (e_compounds e) -> 0 < e_depth e ->
  cexpr (written (c_particles c) (c_compounds c)) ts l -> in_field (tx "(" :: ts ++ [tx ")"]) line text ->
  (forall q, In (PGroup q) l -> piece_of (c_particles c) (c_compounds c) q) ->
  exists data, reaction_of_text e text = Ok (MComb (EOp (tx "(") :: data ++ [EOp (tx ")")]), PTok line) /\ Forall2 saying_states l data.
Proof.
  intros c e ts l line text KP KC EG D DP C F B. destruct (states_combination c KP KC e ts l line text EG D DP C F B) as (data & H & F2 & _). eauto.
Qed.
Print Assumptions C91_combination.

(** *** Gold 196 in its metastable state, over its ground state *)
Definition state (op l : ascii) (k : string) : isomer := mkIsomer op l (tx k).
Definition gold (l : list isomer) : nuclide := mkNuclide (tx "79") (tx "AU") (tx "196") l.
Definition gold_code (l : list isomer) (m : list (list remark)) : gcode :=
  mkGcode (Nucleus (plain "79" "AU" "197")) (CWord (tx "N")) [Out (CMany (tx "2") (tx "N"))] (Some (Nucleus (gold l))) m.
Definition ratio_states := [state "-" "M" ""; state "/" "G" ""].
Definition gold_ratio : gcode := gold_code ratio_states [[]; bareq "SIG/RAT"].
Definition gold_sum_states := [state "-" "G" ""; state "+" "M" "1"; state "/" "M" "2"].
Definition gold_sum : gcode := gold_code gold_sum_states [bareq "IND"; bareq "SIG"].
Definition oxide_states : nuclide := mkNuclide (tx "25") (tx "MN") (tx "54") [state "-" "M" "1"; state "+" "M" "2"].
Definition oxide_sum : gcode := mkGcode (Compound (tx "26-FE-OXI")) (CWord (tx "N")) [proc "X"] (Some (Nucleus oxide_states)) [[]; bareq "SIG"].

Definition sreads (r : gcode) (n : nuclide) (q : string) (text : string) : Prop :=
  good_general (c_particles shipped) (c_compounds shipped) r /\ state_math r n (tx q) /\ in_field (general_tokens r) [] (tx text).
Example C91_reads :
  sreads gold_ratio (gold ratio_states) "SIG/RAT" "(79-AU-197(N,2N)79-AU-196-M/G,,SIG/RAT)" /\
  sreads gold_sum (gold gold_sum_states) "IND" "(79-AU-197(N,2N)79-AU-196-G+M1/M2,IND,SIG)" /\
  sreads oxide_sum oxide_states "SIG" "(26-FE-OXI(N,X) 25-MN-54-M1+M2,,SIG)" /\
  0 < e_depth e1.
Proof.
  assert (R : forall r n q text, gc_residual r = Some (Nucleus n) ->
    good_generalb (c_particles shipped) (c_compounds shipped) r && state_mathb r n (tx q) && in_fieldb (general_tokens r) (tx text) [] [] = true -> sreads r n q text).
  { intros r n q text E H. rewrite !andb_true_iff in H. destruct H as [[H1 H2] H3].
    split; [now apply good_generalb_ok|]. split; [now apply state_mathb_ok|]. rewrite <- (app_nil_r (tx text)). exact (in_fieldb_ok _ (tx text) [] [] H3). }
  split; [apply R; [reflexivity|vm_compute; reflexivity]|]. split; [apply R; [reflexivity|vm_compute; reflexivity]|].
  split; [apply R; [reflexivity|vm_compute; reflexivity]|]. apply Nat.ltb_lt. vm_compute. reflexivity.
Qed.
(** What the states are. *)
Definition residuals (data : list element) : list (option (list str)) :=
  map (fun rx => match p_residual (r_process rx) with RPart (PIsomer _ _ _ l) => Some l | _ => None end) (getReactionList data).
Definition found (text : string) : option (list (option (list str)) * list (list ptree)) :=
  match reaction_of_text e1 (tx text) with Ok (MIso data, _) => Some (residuals data, map r_quant (getReactionList data)) | _ => None end.
Example C91_states :
  found "(79-AU-197(N,2N)79-AU-196-M/G,,SIG/RAT)" =
    Some ([Some [tx "1"]; Some [tx "0"]], [[PTok (tx "SIG/RAT")]; [PTok (tx "SIG/RAT")]]) /\
  found "(79-AU-197(N,2N)79-AU-196-G+M1/M2,,SIG)" =
    Some ([Some [tx "0"]; Some [tx "1"]; Some [tx "2"]], [[PTok (tx "SIG")]; [PTok (tx "SIG")]; [PTok (tx "SIG")]]).
Proof. split; vm_compute; reflexivity. Qed.

(** *** What is lost *)

(** Quantities after the first one: SIG of (79-AU-197(N,2N)79-AU-196-G+M1/M2,IND,SIG). *)
Theorem C91_quantities_refuted : exists r n q text data line,
  good_general (c_particles shipped) (c_compounds shipped) r /\ state_math r n q /\ in_field (general_tokens r) line text /\
  reaction_of_text e1 text = Ok (MIso data, PTok line) /\ length (getReactionList data) = 3 /\
  Forall (fun rx => r_quant rx <> map PTok (general_quantities r)) (getReactionList data).
Proof.
  destruct C91_reads as (_ & (G & S & F) & _). do 6 eexists. split; [exact G|]. split; [exact S|]. split; [exact F|].
  split; [vm_compute; reflexivity|]. split; [vm_compute; reflexivity|]. vm_compute. repeat constructor; discriminate.
Qed.
Print Assumptions C91_quantities_refuted.

Definition texts_of (text : string) : option (list (res str * res str)) :=
  match reaction_of_text e1 (tx text) with
  | Ok (MIso data, _) => Some (map (fun rx => (process_str (e_compounds e1) (r_process rx), reaction_repr rx)) (getReactionList data))
  | _ => None
  end.
(** The total of all states (T) is printed as the metastable state (M). *)
Theorem C91_total_refuted :
  found "(79-AU-197(N,2N)79-AU-196-M/T,,SIG/RAT)" =
    Some ([Some [tx "1"]; Some []], [[PTok (tx "SIG/RAT")]; [PTok (tx "SIG/RAT")]]) /\
  exists t u, texts_of "(79-AU-197(N,2N)79-AU-196-M/T,,SIG/RAT)" = Some [(Ok t, Ok u); (Ok t, Ok u)].
Proof. split; [vm_compute; reflexivity|]. eexists _, _. vm_compute. reflexivity. Qed.
Print Assumptions C91_total_refuted.

(** Inelastic scattering to states of the target: both reactions lead to the target itself. *)
Theorem C91_inelastic_refuted : exists r n q text data line T,
  good_general (c_particles shipped) (c_compounds shipped) r /\ state_math r n q /\ in_field (general_tokens r) line text /\
  reaction_of_text e1 text = Ok (MIso data, PTok line) /\ length (getReactionList data) = 2 /\
  Forall (fun rx => p_targ (r_process rx) = T /\ p_residual (r_process rx) = T) (getReactionList data).
Proof.
  exists (mkGcode (Nucleus (plain "49" "IN" "115")) (CWord (tx "N")) [proc "INL"]
    (Some (Nucleus (mkNuclide (tx "49") (tx "IN") (tx "115") ratio_states))) [[]; bareq "SIG/RAT"]),
    (mkNuclide (tx "49") (tx "IN") (tx "115") ratio_states), (tx "SIG/RAT"), (tx "(49-IN-115(N,INL)49-IN-115-M/G,,SIG/RAT)").
  eexists. exists []. eexists. split; [apply good_generalb_ok; vm_compute; reflexivity|].
  split; [apply state_mathb_ok; [reflexivity|vm_compute; reflexivity]|].
  split; [rewrite <- (app_nil_r (tx "(49-IN-115(N,INL)49-IN-115-M/G,,SIG/RAT)")); apply (in_fieldb_ok _ (tx "(49-IN-115(N,INL)49-IN-115-M/G,,SIG/RAT)") [] []); vm_compute; reflexivity|].
  split; [vm_compute; reflexivity|]. split; [vm_compute; reflexivity|]. constructor; [split; vm_compute; reflexivity|].
  constructor; [split; vm_compute; reflexivity|constructor].
Qed.
Print Assumptions C91_inelastic_refuted.

(** States above the fifth are read alone, but not in a ratio. *)
Theorem C91_sixth_refuted :
  reaction_of_text e1 (tx "(79-AU-197(N,2N)79-AU-196-M6/G,,SIG/RAT)") = Raise ReactionParsingError /\
  exists rx, reaction_of_text e1 (tx "(79-AU-197(N,2N)79-AU-196-M6,,SIG)") = Ok (MRxn rx, PTok []) /\
    p_residual (r_process rx) = RPart (PIsomer (tx "79") (tx "Au") (tx "196") [tx "6"]).
Proof. split; [vm_compute; reflexivity|]. eexists. split; vm_compute; reflexivity. Qed.
Print Assumptions C91_sixth_refuted.

(** *** In a combination *)
Example C91_combined : exists data, reaction_of_text e1 (tx "((79-AU-197(N,2N)79-AU-196-M/G,,SIG/RAT)*(26-FE-56(N,TOT),,SIG))") =
    Ok (MComb data, PTok []) /\ length (getReactionList data) = 3 /\ length data = 5.
Proof. eexists. split; [vm_compute; reflexivity|]. split; vm_compute; reflexivity. Qed.
Example C91_piece : piece_of (c_particles shipped) (c_compounds shipped) (general_tree gold_ratio).
Proof. destruct C91_reads as ((G & S & _) & _). exact (piece_states _ _ _ _ _ G S). Qed.
(** Such a code is one that C87 and C88 allow in an entry. *)
Example C91_in_entries : reaction_code shipped (tx "(79-AU-197(N,2N)79-AU-196-M/G,,SIG/RAT)").
Proof. destruct C91_reads as ((G & S & F) & _). right. left. eexists _, _, _, _. split; [exact G|]. split; [exact S|exact F]. Qed.
