(** Loading the dictionaries. *)
From Coq Require Import String List Ascii NArith ZArith Bool Arith Lia.
From Verif.Model Require Import Py Dicts Particle Reaction Pyparsing Grammars Field Dataset Shipped ShippedDicts Library.
From Verif.Spec Require Import Text Codes References GeneralKnown WellWritten Printable.
From Verif.Proofs Require FieldLemmas.
From Verif.Proofs Require Import StrLemmas ReactionLemmas NamesExamples ShippedLemmas.
Import ListNotations.
Local Open Scope string_scope.
Local Open Scope list_scope.
Local Open Scope nat_scope.

Lemma dget_keys_iff : forall (V : Type) k (d : list (str * V)), In k (dkeys d) <-> exists v, dget str_eqb k d = Some v.
Proof.
  intros V k d. unfold dkeys. induction d as [|[k' v] d IH]; cbn [map fst In dget].
  - split; [intros []|intros (v & H); discriminate].
  - destruct (str_eqb k k') eqn:E.
    + apply str_eqb_eq in E. subst. split; eauto.
    + rewrite <- IH. assert (k' <> k) by (intros ->; assert (str_eqb k k = true) by (now apply str_eqb_eq); congruence). tauto.
Qed.
Lemma alternatives_ok : forall d ks, alternatives d = Ok ks -> ks = dkeys d.
Proof. intros d ks H. unfold alternatives in H. destruct (dkeys d); [discriminate|]. destruct (existsb _ _); [discriminate|]. congruence. Qed.

Lemma load_parts : forall dir depth c e nm, load dir depth = Ok (c, e, nm) ->
  exists particles, opened dir "Particles" = Ok particles /\ opened dir "Compounds" = Ok (nm_compounds nm) /\ opened dir "Institutes" = Ok (e_institutes e) /\
    getAllDictionaries dir = Ok (e_dicts e) /\ dget str_eqb (lit "Quantities") (e_dicts e) = Some (nm_quantities nm) /\
    dget str_eqb (lit "Modifiers") (e_dicts e) = Some (nm_modifiers nm) /\
    c = mkCodes (dkeys particles) (dkeys (nm_compounds nm)) /\ e_g e = x4grammars c /\ e_compounds e = nm_compounds nm /\ e_depth e = depth.
Proof.
  intros dir depth c e nm H. unfold load in H.
  apply bind_ok in H. destruct H as (ds & DS & H). apply bind_ok in H. destruct H as (ps & P & H). apply bind_ok in H. destruct H as (cs & C & H).
  apply bind_ok in H. destruct H as (pk & PK & H). apply bind_ok in H. destruct H as (ck & CK & H).
  apply bind_ok in H. destruct H as (q & Q & H). apply bind_ok in H. destruct H as (m & M & H). apply bind_ok in H. destruct H as (i & I & H).
  apply alternatives_ok in PK, CK. subst pk ck.
  assert (c = mkCodes (dkeys ps) (dkeys cs)) by congruence. assert (nm = mkNames cs q m) by congruence.
  assert (e = mkEnv (x4grammars (mkCodes (dkeys ps) (dkeys cs))) cs i ds depth) by congruence. subst. cbn [nm_compounds nm_quantities nm_modifiers e_institutes e_dicts e_g e_compounds e_depth].
  exists ps. destruct (dget str_eqb (lit "Quantities") ds) as [q'|]; [|discriminate]. destruct (dget str_eqb (lit "Modifiers") ds) as [m'|]; [|discriminate].
  cbn [of_option] in Q, M. repeat (split; [first [assumption|congruence|reflexivity]|]). reflexivity.
Qed.

(** ** The shipped dictionaries *)
Definition filledb (d : x4dict) : bool := forallb (fun r => match snd r with [] => false | _ => true end) d.
Lemma filledb_ok : forall d, filledb d = true -> rows_filled d.
Proof.
  intros d H k row G. apply dget_In in G as (k' & I). unfold filledb in H. rewrite forallb_forall in H. apply H in I. cbn [snd] in I. now intros ->.
Qed.
Fixpoint list_eqb (a b : list str) : bool :=
  match a, b with [], [] => true | x :: a', y :: b' => str_eqb x y && list_eqb a' b' | _, _ => false end.
Lemma list_eqb_eq : forall a b, list_eqb a b = true -> a = b.
Proof.
  induction a as [|x a IH]; intros [|y b] H; cbn [list_eqb] in H; try discriminate; [reflexivity|].
  apply andb_true_iff in H. destruct H as [E H]. apply str_eqb_eq in E. subst. f_equal. now apply IH.
Qed.
Definition load_check (dir : str -> option str) (c : codes) : bool :=
  match load dir 0 with
  | Ok (c', e, nm) => list_eqb (c_particles c') (c_particles c) && list_eqb (c_compounds c') (c_compounds c) &&
      filledb (nm_compounds nm) && filledb (nm_quantities nm) && filledb (nm_modifiers nm) && filledb (e_institutes e) &&
      (wideb (e_dicts e) "ConferencesAndBooks" 1 && wideb (e_dicts e) "Journals" 1 && wideb (e_dicts e) "ReferenceTypes" 2)
  | Raise _ => false
  end.
Lemma load_depth : forall dir depth c e nm, load dir 0 = Ok (c, e, nm) ->
  load dir depth = Ok (c, mkEnv (e_g e) (e_compounds e) (e_institutes e) (e_dicts e) depth, nm).
Proof.
  intros dir depth c e nm H. unfold load in *.
  apply bind_ok in H. destruct H as (ds & DS & H). apply bind_ok in H. destruct H as (ps & P & H). apply bind_ok in H. destruct H as (cs & C & H).
  apply bind_ok in H. destruct H as (pk & PK & H). apply bind_ok in H. destruct H as (ck & CK & H).
  apply bind_ok in H. destruct H as (q & Q & H). apply bind_ok in H. destruct H as (m & M & H). apply bind_ok in H. destruct H as (i & I & H).
  rewrite DS, P, C. cbn [bind]. rewrite PK, CK. cbn [bind]. rewrite Q, M, I. cbn [bind].
  match type of H with Ok (?a, ?b, ?n) = _ => assert (c = a) by congruence; assert (e = b) by congruence; assert (nm = n) by congruence end. subst. reflexivity.
Qed.
Lemma load_checked : forall dir c depth, load_check dir c = true -> Forall particle_key (c_particles c) -> Forall compound_key (c_compounds c) -> 0 < depth ->
  exists e nm, load dir depth = Ok (c, e, nm) /\ e_depth e = depth /\ well_dictionaries c e /\ naming c e nm.
Proof.
  intros dir c depth H PK CK DP. unfold load_check in H. destruct (load dir 0) as [[[c' e] nm]|] eqn:L; [|discriminate].
  repeat (rewrite andb_true_iff in H). destruct H as ((((((K1 & K2) & F1) & F2) & F3) & F4) & W).
  apply list_eqb_eq in K1, K2. assert (c' = c) by (destruct c', c; cbn in *; congruence). subst c'. clear K1 K2.
  exists (mkEnv (e_g e) (e_compounds e) (e_institutes e) (e_dicts e) depth), nm.
  destruct (load_parts _ _ _ _ _ L) as (ps & _ & _ & _ & _ & _ & _ & C & G & EC & _).
  assert (NC : has_names (c_compounds c) (nm_compounds nm)).
  { intros k I. rewrite C in I. cbn [c_compounds] in I. apply dget_keys_iff in I. destruct I as (row & R). exists row. split; [exact R|].
    exact (filledb_ok _ F1 _ _ R). }
  split; [now apply load_depth|]. split; [reflexivity|]. split.
  - constructor; cbn [e_g e_compounds e_institutes e_dicts]; [exact PK|exact CK|exact G|now rewrite EC|now apply filledb_ok| |exact DP]. apply rowsb_ok.
    rewrite !andb_true_iff. exact W.
  - constructor; cbn [e_g]; [exact G|exact NC|now apply filledb_ok|now apply filledb_ok].
Qed.
Lemma shipped_check : load_check shipped_dir shipped = true.
Proof. vm_compute. reflexivity. Qed.
Lemma shipped_loaded : forall depth, 0 < depth -> exists e nm, load shipped_dir depth = Ok (shipped, e, nm) /\ e_depth e = depth /\
  well_dictionaries shipped e /\ naming shipped e nm.
Proof. intro depth. exact (load_checked shipped_dir shipped depth shipped_check (proj1 shipped_keys) (proj2 shipped_keys)). Qed.
Lemma loaded_is : forall depth e nm, 0 < depth -> load shipped_dir depth = Ok (shipped, e, nm) -> well_dictionaries shipped e /\ naming shipped e nm.
Proof.
  intros depth e nm DP L. destruct (shipped_loaded depth DP) as (e' & nm' & L' & _ & D & N). rewrite L in L'.
  assert (e' = e) by congruence. assert (nm' = nm) by congruence. subst. auto.
Qed.
Lemma opened_ok : forall dir name d, opened dir name = Ok d -> server_getDictionary dir (DName (lit name)) = Ok (Some d).
Proof.
  intros dir name d H. unfold opened in H. apply bind_ok in H. destruct H as (o & O & H). destruct o as [x|]; [|discriminate]. cbn [of_option] in H. congruence.
Qed.
(** What getAllDictionaries collects is what the server opens. *)
Definition collect (dir : str -> option str) (dictmap : list (str * x4dict)) (i : Z * str) : res (list (str * x4dict)) :=
  tmp <- server_getDictionary dir (DInt (fst i)) ;;
  match tmp with None => Ok dictmap | Some d => Ok (dset str_eqb (snd i) d dictmap) end.
Lemma collected : forall dir name l m ds, fold_res (collect dir) l m = Ok ds -> NoDup (map snd l) ->
  dget str_eqb name ds = match find (fun i => str_eqb (snd i) name) l with
                         | Some i => match server_getDictionary dir (DInt (fst i)) with Ok (Some d) => Some d | _ => dget str_eqb name m end
                         | None => dget str_eqb name m end.
Proof.
  intros dir name. induction l as [|i l IH]; intros m ds H N; cbn [fold_res find] in *; [congruence|].
  apply bind_ok in H. destruct H as (m' & C & H). cbn [map] in N. inversion N as [|? ? N1 N2]; subst.
  rewrite (IH _ _ H N2). unfold collect in C. apply bind_ok in C. destruct C as (o & O & C).
  assert (G : str_eqb (snd i) name = true -> find (fun j => str_eqb (snd j) name) l = None).
  { intro E. apply str_eqb_eq in E. destruct (find _ l) as [j|] eqn:F; [|reflexivity]. exfalso. apply find_some in F. destruct F as [I F].
    apply str_eqb_eq in F. apply N1. rewrite E, <- F. now apply in_map. }
  destruct o as [d|].
  - assert (m' = dset str_eqb (snd i) d m) by congruence. subst m'. rewrite (FieldLemmas.dget_dset _ _ str_eqb str_eqb_eq).
    destruct (str_eqb (snd i) name) eqn:E.
    + rewrite (G eq_refl), O. apply str_eqb_eq in E. subst. assert (Q : str_eqb (snd i) (snd i) = true) by now apply str_eqb_eq. now rewrite Q.
    + assert (Q : str_eqb name (snd i) = false).
      { destruct (str_eqb name (snd i)) eqn:Q; [|reflexivity]. apply str_eqb_eq in Q. subst. assert (str_eqb (snd i) (snd i) = true) by now apply str_eqb_eq. congruence. }
      rewrite Q. reflexivity.
  - assert (m' = m) by congruence. subst m'. destruct (str_eqb (snd i) name) eqn:E; [now rewrite (G eq_refl), O|reflexivity].
Qed.
Lemma all_named : forall dir ds name d, getAllDictionaries dir = Ok ds -> dget str_eqb (lit name) ds = Some d ->
  server_getDictionary dir (DName (lit name)) = Ok (Some d).
Proof.
  intros dir ds name d H G. change (getAllDictionaries dir) with (fold_res (collect dir) DictionaryNames []) in H.
  rewrite (collected dir (lit name) _ _ _ H) in G.
  - unfold server_getDictionary at 1. cbn [getDictionaryFilename]. destruct (find _ DictionaryNames) as [i|] eqn:F; [|discriminate G]. cbn [option_map].
    destruct (server_getDictionary dir (DInt (fst i))) as [[x|]|] eqn:S; try discriminate G. assert (x = d) by congruence. subst x.
    rewrite <- S. unfold server_getDictionary. cbn [getDictionaryFilename].
    apply find_some in F. destruct F as [I _]. clear - I.
    assert (A : Forall (fun i => option_map (fun j => dict_file (fst j)) (find (fun j => Z.eqb (fst j) (fst i)) DictionaryNames) = Some (dict_file (fst i))) DictionaryNames).
    { unfold DictionaryNames. cbn [map fst snd]. repeat (apply Forall_cons; [vm_compute; reflexivity|]). apply Forall_nil. }
    rewrite Forall_forall in A. rewrite (A _ I). reflexivity.
  - assert (D : forall l : list str, (fix nodup l := match l with [] => true | x :: l' => negb (smem x l') && nodup l' end) l = true -> NoDup l).
    { clear. induction l as [|x l IH]; intro H; [constructor|]. apply andb_true_iff in H. destruct H as [A B]. constructor; [|now apply IH].
      intro I. apply smem_In in I. rewrite I in A. discriminate. }
    apply D. vm_compute. reflexivity.
Qed.
Lemma load_directory : forall dir depth c e nm, load dir depth = Ok (c, e, nm) ->
  e_g e = x4grammars c /\ e_depth e = depth /\ getAllDictionaries dir = Ok (e_dicts e) /\
  (exists d, server_getDictionary dir (DName (lit "Particles")) = Ok (Some d) /\ forall k, In k (c_particles c) <-> exists row, dget str_eqb k d = Some row) /\
  (exists d, server_getDictionary dir (DName (lit "Compounds")) = Ok (Some d) /\ nm_compounds nm = d /\ e_compounds e = d /\
     forall k, In k (c_compounds c) <-> exists row, dget str_eqb k d = Some row) /\
  server_getDictionary dir (DName (lit "Quantities")) = Ok (Some (nm_quantities nm)) /\
  server_getDictionary dir (DName (lit "Modifiers")) = Ok (Some (nm_modifiers nm)) /\
  server_getDictionary dir (DName (lit "Institutes")) = Ok (Some (e_institutes e)) /\
  (rows_filled (nm_compounds nm) -> rows_filled (nm_quantities nm) -> rows_filled (nm_modifiers nm) -> naming c e nm).
Proof.
  intros dir depth c e nm L. destruct (load_parts _ _ _ _ _ L) as (ps & P & C & I & A & Q & M & K & G & EC & D).
  apply opened_ok in P, C, I. split; [exact G|]. split; [exact D|]. split; [exact A|]. split; [|split; [|split; [|split; [|split]]]].
  - exists ps. split; [exact P|]. intro k. rewrite K. cbn [c_particles]. apply dget_keys_iff.
  - exists (nm_compounds nm). split; [exact C|]. split; [reflexivity|]. split; [exact EC|]. intro k. rewrite K at 1. cbn [c_compounds]. apply dget_keys_iff.
  - exact (all_named _ _ _ _ A Q).
  - exact (all_named _ _ _ _ A M).
  - exact I.
  - intros F1 F2 F3. constructor; auto. intros k J. rewrite K in J. cbn [c_compounds] in J. apply dget_keys_iff in J. destruct J as (row & R).
    exists row. split; [exact R|]. exact (F1 _ _ R).
Qed.
