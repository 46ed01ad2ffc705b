(** Properties C67-C70: what is read from the text of reaction codes. *)
From Coq Require Import String List Ascii NArith ZArith Bool Arith.
From Verif.Model Require Import Py Dicts Particle Reaction Field Pyparsing Grammars Shipped.
From Verif.Spec Require Import Text Codes General Balance.
From Verif.Proofs Require Import GrammarReactions GrammarGeneral GrammarFields ShippedLemmas BalanceLemmas RoundtripLemmas.
Import ListNotations.
Local Open Scope string_scope.
Local Open Scope list_scope.
Local Open Scope nat_scope.

(** ** C67: blanks and line ends inside a reaction code do not matter *)

(** The dictionaries that are shipped satisfy the two hypotheses on dictionaries below. *)
Theorem C67_shipped : Forall particle_key (c_particles shipped) /\ Forall compound_key (c_compounds shipped).
Proof. exact shipped_keys. Qed.
Print Assumptions C67_shipped.

(** A REACTION field: a reaction or a combination of reactions in parentheses, then free text,
    of which the rest of the line is kept. *)
Theorem C67_field : forall c ts l line text,
  Forall particle_key (c_particles c) -> Forall compound_key (c_compounds c) ->
  cfactor (written (c_particles c) (c_compounds c)) ts l -> in_field ts line text ->
  g_reactionfield (x4grammars c) text = Some (l ++ [PTok line]).
Proof. exact field_read. Qed.
Print Assumptions C67_field.

(** A combination of reactions without outer parentheses. *)
Theorem C67_compound : forall c ts l s k,
  Forall particle_key (c_particles c) -> Forall compound_key (c_compounds c) ->
  cexpr (written (c_particles c) (c_compounds c)) ts l -> spaced ts s -> after_reaction k -> ~ In (ascii_of_N 9) (s ++ k) ->
  g_compound (x4grammars c) (s ++ k) = Some l.
Proof. intros c ts l s k KP KC. exact (compound_text c KP KC ts l s k). Qed.
Print Assumptions C67_compound.

(** A single reaction; whatever follows it. *)
Theorem C67_reaction : forall c r s k,
  Forall particle_key (c_particles c) -> Forall compound_key (c_compounds c) ->
  good_reaction (c_particles c) r -> spaced (reaction_tokens r) s -> ~ In (ascii_of_N 9) (s ++ k) ->
  g_reaction (x4grammars c) (s ++ k) = Some (reaction_tree r).
Proof. intros c r s k KP KC. exact (reaction_text c KP KC r s k). Qed.
Print Assumptions C67_reaction.

Definition plain (z s a : string) : nuclide := mkNuclide (tx z) (tx s) (tx a) [].
Definition n2n : rcode :=
  mkRcode (plain "26" "FE" "56") (CWord (tx "N")) [CMany (tx "2") (tx "N")] (Some (plain "26" "FE" "55"))
    [None; Some (tx "SIG")].
Definition he3np : rcode :=
  mkRcode (mkNuclide (tx "95") (tx "AM") (tx "242") [mkIsomer "-"%char "M"%char (tx "1")]) (CWord (tx "HE3"))
    [CWord (tx "N"); CWord (tx "P")] None [Some (tx "CUM"); Some (tx "SIG")].

Example C67_n2n : good_reaction (c_particles shipped) n2n /\ good_reaction (c_particles shipped) he3np.
Proof. split; apply reactionb_ok; vm_compute; reflexivity. Qed.
Definition n2n_text : str :=
  tx " ( 26-FE-56(N, 2N)" ++ nl :: tx "26 -FE-55,," ++ nl :: tx " SIG)".
Example C67_n2n_spaced : spaced (reaction_tokens n2n) n2n_text.
Proof. apply spacedb_ok. vm_compute. reflexivity. Qed.
Example C67_example :
  g_reactionfield (x4grammars shipped) (n2n_text ++ tx "  " ++ tx "Above threshold." ++ nl :: tx "More.") =
  Some ([PGroup (reaction_tree n2n)] ++ [PTok (tx "Above threshold.")]).
Proof. vm_compute. reflexivity. Qed.
(** ((...)/(...)) + ... in parentheses. *)
Example C67_ratio :
  cfactor (written (c_particles shipped) (c_compounds shipped))
    (tx "(" :: (reaction_tokens n2n ++ tx "/" :: reaction_tokens he3np) ++ [tx ")"])
    (PTok (tx "(") :: ([PGroup (reaction_tree n2n)] ++ PTok (tx "/") :: [PGroup (reaction_tree he3np)]) ++ [PTok (tx ")")]).
Proof.
  apply cf_paren, ce_term, ct_times; [cbn; auto| |].
  - apply ct_factor, cf_reaction, general_written, C67_n2n.
  - apply cf_reaction, general_written, C67_n2n.
Qed.
Example C67_ratio_read :
  g_reactionfield (x4grammars shipped)
    (tx "((26-FE-56(N,2N)26-FE-55,,SIG)/" ++ nl :: tx "(95-AM-242-M1(HE3,N+P),CUM,SIG))") =
  Some [PTok (tx "("); PGroup (reaction_tree n2n); PTok (tx "/"); PGroup (reaction_tree he3np); PTok (tx ")"); PTok []].
Proof. vm_compute. reflexivity. Qed.

(** Without the hypotheses on products the same texts are read differently: a nuclide in front
    of "+G" swallows it, a dictionary key B+ swallows the plus sign of "B+N", and XN is X
    and N. *)
Theorem C67_products_refuted :
  exists r1 r2 r3 s1 s2 s3,
    spaced (reaction_tokens r1) s1 /\ spaced (reaction_tokens r2) s2 /\ spaced (reaction_tokens r3) s3 /\
    rc_products r1 = [CNuclide (plain "2" "HE" "4"); CWord (tx "G")] /\
    rc_products r2 = [CWord (tx "B"); CWord (tx "N")] /\
    rc_products r3 = [CWord (tx "XN")] /\
    g_reaction (x4grammars shipped) s1 <> Some (reaction_tree r1) /\
    g_reaction (x4grammars shipped) s2 <> Some (reaction_tree r2) /\
    g_reaction (x4grammars shipped) s3 <> Some (reaction_tree r3).
Proof.
  pose (f := fun l => mkRcode (plain "5" "B" "10") (CWord (tx "N")) l None [None; Some (tx "SIG")]).
  exists (f [CNuclide (plain "2" "HE" "4"); CWord (tx "G")]), (f [CWord (tx "B"); CWord (tx "N")]), (f [CWord (tx "XN")]).
  exists (tx "(5-B-10(N,2-HE-4+G),,SIG)"), (tx "(5-B-10(N,B+N),,SIG)"), (tx "(5-B-10(N,XN),,SIG)").
  split; [apply spacedb_ok; vm_compute; reflexivity|]. split; [apply spacedb_ok; vm_compute; reflexivity|].
  split; [apply spacedb_ok; vm_compute; reflexivity|]. split; [reflexivity|]. split; [reflexivity|]. split; [reflexivity|].
  split; [|split]; vm_compute; discriminate.
Qed.
Print Assumptions C67_products_refuted.

(** ** C68: the residual that is written is the residual; if none is written, it is what is left *)

Theorem C68_written : forall c e r n line text z a,
  Forall particle_key (c_particles c) -> Forall compound_key (c_compounds c) -> e_g e = x4grammars c ->
  good_reaction (c_particles c) r -> in_field (reaction_tokens r) line text ->
  leaves r z a -> rc_residual r = Some n -> nuclide_is n z a ->
  exists rx R, reaction_of_text e text = Ok (MRxn rx, PTok line) /\ tells r rx R /\ object_of (CNuclide n) z a R.
Proof. exact written_residual. Qed.
Print Assumptions C68_written.

Theorem C68_computed : forall c e r line text z a,
  Forall particle_key (c_particles c) -> Forall compound_key (c_compounds c) -> e_g e = x4grammars c ->
  good_reaction (c_particles c) r -> in_field (reaction_tokens r) line text ->
  leaves r z a -> rc_residual r = None -> (0 <= z < 119)%Z -> (z <> 0 \/ a <> 0)%Z ->
  exists rx R, reaction_of_text e text = Ok (MRxn rx, PTok line) /\ tells r rx R /\
    getZ R = Ok z /\ getA R = Ok a /\
    exists sym, endl_ZSymbol z = Some sym /\ exfor R = Ok (nucleus_exfor (z_to_str z) (capitalize sym) (z_to_str a)).
Proof. exact computed_residual_text. Qed.
Print Assumptions C68_computed.

Definition e0 : env := mkEnv (x4grammars shipped) [] [] [] 20.
Definition alpha2n : rcode :=
  mkRcode (plain "27" "CO" "59") (CWord (tx "A")) [CMany (tx "2") (tx "N"); CWord (tx "P")] None [None; Some (tx "SIG")].
Example C68_leaves : leaves n2n 26 55 /\ leaves alpha2n 28 60.
Proof.
  assert (N : forall s ds, s = digits_text ds -> forallb (fun d => d <? 10)%N ds = true -> ds <> [] ->
              number_is s (Z.of_N (value10 ds))).
  { intros s ds E D NE. exists ds. repeat split; auto. apply Forall_forall. intros d I. apply N.ltb_lt.
    exact (proj1 (forallb_forall _ _) D d I). }
  split.
  - exists 26%Z, 56%Z, 0%Z, 1%Z, 0%Z, 2%Z. split; [|split; [|split; [|split; [reflexivity|split; reflexivity]]]].
    + split; [reflexivity|]. split; [exact (N _ [2; 6]%N eq_refl eq_refl ltac:(discriminate))|].
      split; [exact (N _ [5; 6]%N eq_refl eq_refl ltac:(discriminate))|reflexivity].
    + apply (weighs_one "N"). vm_compute. auto 20.
    + apply (weigh_cons _ [] 0 2 0 0); [|constructor]. apply (weighs_many (tx "2") 2 "N" 0 1); [|vm_compute; auto 20].
      split; [exact (N _ [2]%N eq_refl eq_refl ltac:(discriminate))|]. split; [discriminate|]. intros t E. discriminate.
  - exists 27%Z, 59%Z, 2%Z, 4%Z, 1%Z, 3%Z. split; [|split; [|split; [|split; [reflexivity|split; reflexivity]]]].
    + split; [reflexivity|]. split; [exact (N _ [2; 7]%N eq_refl eq_refl ltac:(discriminate))|].
      split; [exact (N _ [5; 9]%N eq_refl eq_refl ltac:(discriminate))|reflexivity].
    + apply (weighs_one "A"). vm_compute. auto 20.
    + apply (weigh_cons _ [CWord (tx "P")] 0 2 1 1).
      * apply (weighs_many (tx "2") 2 "N" 0 1); [|vm_compute; auto 20].
        split; [exact (N _ [2]%N eq_refl eq_refl ltac:(discriminate))|]. split; [discriminate|]. intros t E. discriminate.
      * apply (weigh_cons _ [] 1 1 0 0); [|constructor]. apply (weighs_one "P"). vm_compute. auto 20.
Qed.
Definition residual_of (m : res (measurement * ptree)) : option product :=
  match m with Ok (MRxn rx, _) => Some (p_residual (r_process rx)) | _ => None end.
Example C68_example :
  residual_of (reaction_of_text e0 (tx "(26-FE-56(N,2N)26-FE-55,,SIG)")) = Some (RPart (PNucleus (tx "26") (tx "Fe") (tx "55"))) /\
  residual_of (reaction_of_text e0 (tx "(27-CO-59(A,2N+P),,SIG) New.")) = Some (RPart (PNucleus (tx "28") (tx "Ni") (tx "60"))).
Proof. vm_compute. auto. Qed.

(** Outside these cases the residual that is written is lost: for natural elements, for the
    product X, and (replaced by the target) for isomers after inelastic scattering. *)
Theorem C68_written_refuted :
  residual_of (reaction_of_text e0 (tx "(26-FE-0(N,P)25-MN-56,,SIG)")) = Some RNone /\
  residual_of (reaction_of_text e0 (tx "(26-FE-56(P,X)25-MN-54,,SIG)")) = Some RNone /\
  residual_of (reaction_of_text e0 (tx "(49-IN-115(N,INL)49-IN-115-M,,SIG)")) =
    Some (RPart (PNucleus (tx "49") (tx "In") (tx "115"))).
Proof. vm_compute. auto. Qed.
Print Assumptions C68_written_refuted.

(** ** C69: a combination is read as its reactions and operators, in order *)

Theorem C69_combination : forall c e ts l line text,
  Forall particle_key (c_particles c) -> Forall compound_key (c_compounds c) -> e_g e = x4grammars c ->
  cexpr (written (c_particles c) (c_compounds c)) ts l -> in_field (tx "(" :: ts ++ [tx ")"]) line text ->
  (forall q, In (PGroup q) l -> exists r, good_reaction (c_particles c) r /\ balances r /\ q = reaction_tree r) ->
  exists data, reaction_of_text e text = Ok (MComb (EOp (tx "(") :: data ++ [EOp (tx ")")]), PTok line) /\
    Forall2 telling l data.
Proof. exact combination_text. Qed.
Print Assumptions C69_combination.

Example C69_balances : balances n2n /\ balances alpha2n.
Proof.
  destruct C68_leaves as [A B]. split.
  - exists 26%Z, 55%Z. split; [exact A|]. split; [reflexivity|].
    split; [exists [2; 6]%N|split; [exists [5; 5]%N|reflexivity]].
    + repeat split; try discriminate. repeat (apply Forall_cons; [reflexivity|]). apply Forall_nil.
    + repeat split; try discriminate. repeat (apply Forall_cons; [reflexivity|]). apply Forall_nil.
  - exists 28%Z, 60%Z. split; [exact B|]. cbn. split; [split; [discriminate|reflexivity]|]. left. discriminate.
Qed.
Example C69_example :
  match reaction_of_text e0 (tx "((26-FE-56(N,2N)26-FE-55,,SIG)/(27-CO-59(A,2N+P),,SIG)) Ratio") with
  | Ok (MComb [EOp a; ERxn r1; EOp b; ERxn r2; EOp d], PTok line) =>
      a = tx "(" /\ b = tx "/" /\ d = tx ")" /\ line = tx "Ratio" /\
      reaction_repr r1 = Ok (tx "(26-FE-56(N,2N)26-FE-55,SIG)") /\
      reaction_repr r2 = Ok (tx "(27-CO-59(A,2N+P)28-NI-60,SIG)")
  | _ => False
  end.
Proof. vm_compute. auto 10. Qed.

(** ** C70: a printed reaction reads back as the same reaction *)

Theorem C70_roundtrip : forall c e r line text z a,
  Forall particle_key (c_particles c) -> Forall compound_key (c_compounds c) -> e_g e = x4grammars c ->
  good_reaction (c_particles c) r -> in_field (reaction_tokens r) line text ->
  leaves r z a -> (0 < a)%Z ->
  match rc_residual r with Some n => nuclide_is n z a /\ ~ neutron (CNuclide n) | None => (0 <= z < 113)%Z end ->
  ~ neutron (CNuclide (rc_target r)) -> ~ neutron (rc_projectile r) -> Forall (fun x => ~ neutron x) (rc_products r) ->
  exists rx t, reaction_of_text e text = Ok (MRxn rx, PTok line) /\
    reaction_repr rx = Ok t /\ reaction_of_text e t = Ok (MRxn rx, PTok []).
Proof. exact roundtrip. Qed.
Print Assumptions C70_roundtrip.

Example C70_example : exists rx,
  reaction_of_text e0 (tx " ( 27-CO-59(A , 2N + P),,SIG)  Free text") = Ok (MRxn rx, PTok (tx "Free text")) /\
  reaction_repr rx = Ok (tx "(27-CO-59(A,2N+P)28-NI-60,SIG)") /\
  reaction_of_text e0 (tx "(27-CO-59(A,2N+P)28-NI-60,SIG)") = Ok (MRxn rx, PTok []).
Proof. eexists. vm_compute. auto. Qed.

(** False in general: an isomer T (sum over states) prints as the metastable state, and a
    residual with a three-letter symbol prints as a code that is not accepted. *)
Definition printed (m : res (measurement * ptree)) : res str :=
  match m with Ok (MRxn rx, _) => reaction_repr rx | Ok _ => Raise OutsideModel | Raise x => Raise x end.
Theorem C70_roundtrip_refuted :
  printed (reaction_of_text e0 (tx "(26-FE-56(N,P)25-MN-56-T,,SIG)")) = Ok (tx "(26-FE-56(N,P)25-MN-56-M,SIG)") /\
  printed (reaction_of_text e0 (tx "(26-FE-56(N,P)25-MN-56-M,SIG)")) = Ok (tx "(26-FE-56(N,P)25-MN-56-M,SIG)") /\
  (exists rx rx' l l',
     reaction_of_text e0 (tx "(26-FE-56(N,P)25-MN-56-T,,SIG)") = Ok (MRxn rx, l) /\
     reaction_of_text e0 (tx "(26-FE-56(N,P)25-MN-56-M,SIG)") = Ok (MRxn rx', l') /\ rx <> rx') /\
  printed (reaction_of_text e0 (tx "(83-BI-209(30-ZN-70,N),,SIG)")) = Ok (tx "(83-BI-209(30-ZN-70,N)113-UUT-278,SIG)") /\
  reaction_of_text e0 (tx "(83-BI-209(30-ZN-70,N)113-UUT-278,SIG)") = Raise ReactionParsingError.
Proof.
  split; [vm_compute; reflexivity|]. split; [vm_compute; reflexivity|]. split.
  - eexists. eexists. eexists. eexists. split; [vm_compute; reflexivity|]. split; [vm_compute; reflexivity|]. discriminate.
  - split; vm_compute; reflexivity.
Qed.
Print Assumptions C70_roundtrip_refuted.

(** C60: monitors with and without heading. *)
Example C60_grammar_example :
  match monitor_reaction e0 (tx "((MONIT1)27-CO-59(A,2N+P),,SIG) From ENDF"), monitor_reaction e0 (tx "(27-CO-59(A,2N+P),,SIG)") with
  | Ok (Some (MRxn r1), PTok l1, h1), Ok (Some (MRxn r2), PTok l2, h2) =>
      r1 = r2 /\ l1 = tx "From ENDF" /\ l2 = [] /\ h1 = Some (tx "MONIT1") /\ h2 = None /\
      reaction_repr r1 = Ok (tx "(27-CO-59(A,2N+P)28-NI-60,SIG)")
  | _, _ => False
  end.
Proof. vm_compute. auto 10. Qed.
