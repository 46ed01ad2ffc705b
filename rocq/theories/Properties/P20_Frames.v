(** Property C85: the frame of reference of angular and energy distributions. *)
From Coq Require Import String List Ascii NArith ZArith Bool Arith.
From Verif.Model Require Import Py PyFloat Utilities Dicts Particle Reaction Field Section Entry Columns Dataset Repr Print.
From Verif.Spec Require Import Text Exfor Frames.
From Verif.Proofs Require Import FrameLemmas.
From Verif.Properties Require Import P15_Document.
Import ListNotations.
Local Open Scope string_scope.
Local Open Scope list_scope.
Local Open Scope nat_scope.

(** The data sets of an entry: center of mass exactly if some heading of the data set says so. *)
Theorem C85_data_sets : forall e raw nm n errs ds errs' n', X4Entry e raw = Ok n -> getDataSets nm n errs = Ok (ds, errs', n') ->
  forall k d, dget key_eqb k ds = Some d -> frame_right (ds_class_of d) (t_labels (ds_table d)) (ds_frame d).
Proof. exact dataSets_frame. Qed.
Print Assumptions C85_data_sets.

(** Simplified data sets have the frame that the headings stated before they were simplified. *)
Theorem C85_simplified : forall e raw nm acos mk n errs s ds' errs' n' s', X4Entry e raw = Ok n ->
  getSimplifiedDataSets nm acos mk n errs s = Ok (ds', errs', n', s') ->
  exists ds errs0, getDataSets nm n errs = Ok (ds, errs0, n') /\
    forall k d', dget key_eqb k ds' = Some d' -> exists d, dget key_eqb k ds = Some d /\
      ds_class_of d' = ds_class_of d /\ frame_right (ds_class_of d') (t_labels (ds_table d)) (ds_frame d').
Proof. exact simplifiedDataSets_frame. Qed.
Print Assumptions C85_simplified.

(** str() says which. *)
Theorem C85_printed : forall nm d text, dataset_str nm d = Ok text -> distribution (ds_class_of d) ->
  exists f before after, ds_frame d = Some f /\ text = before ++ [nl] ++ lit "#  Frame:     " ++ f ++ [nl] ++ after.
Proof. exact frame_printed. Qed.
Print Assumptions C85_printed.

(** *** An angular distribution *)

Definition main85 : str := text_of
  ["SUBENT        10001001   20200101";
   "BIB                  1          1";
   "TITLE      Elastic scattering";
   "ENDBIB               1";
   "ENDSUBENT            4"].
Definition angular85 (angle : string) : str := text_of
  ["SUBENT        10001002   20200101";
   "BIB                  1          1";
   "REACTION   (26-FE-56(N,EL)26-FE-56,,DA)";
   "ENDBIB               1";
   "NOCOMMON             0          0";
   "DATA                 3          1";
   ("EN         " ++ angle ++ "DATA")%string;
   "MEV        ADEG       MB/SR";
   " 1.5        60.       12.3";
   "ENDDATA              3";
   "ENDSUBENT            9"].
Definition nm85 : names := mkNames [] [(lit "DA", [lit "Differential c/s with respect to angle"])] [].
Definition key85 : ds_key := (lit "10001", Some (lit "10001002"), " "%char).
Definition plain85 (angle : string) : option dataset :=
  match X4Entry e1 [main85; angular85 angle] with
  | Ok n => match getDataSets nm85 n [] with Ok (ds, _, _) => dget key_eqb key85 ds | Raise _ => None end
  | Raise _ => None
  end.
Definition simple85 (angle : string) : option dataset :=
  match X4Entry e1 [main85; angular85 angle] with
  | Ok n => match getSimplifiedDataSets nm85 (fun x => Some x) false n [] store0 with
            | Ok (ds, _, _, _) => dget key_eqb key85 ds | Raise _ => None end
  | Raise _ => None
  end.
Definition summary (d : dataset) := (ds_class_of d, ds_simplified d, t_labels (ds_table d), ds_frame d).
Example C85_example :
  option_map summary (plain85 "ANG-CM     ") =
    Some (AngularDist, false, map lit ["EN"; "ANG-CM"; "DATA"], Some (lit "Center of mass")) /\
  option_map summary (simple85 "ANG-CM     ") =
    Some (AngularDist, true, map lit ["Energy"; "Angle"; "Data"], Some (lit "Center of mass")) /\
  option_map summary (plain85 "ANG        ") =
    Some (AngularDist, false, map lit ["EN"; "ANG"; "DATA"], Some (lit "Lab")) /\
  option_map (dataset_str nm85) (simple85 "ANG-CM     ") = Some (Ok (text_of
    ["#  Authors:   N, o, n, e";
     "#  Title:     Elastic Scattering";
     "#  Year:      None";
     "#  Institute: None";
     "#  Reference: None";
     "#  Subent:    10001002";
     "#  Reaction:  Differential c/s with respect to angle for 56Fe(n,Elastic)56Fe ";
     "#  Frame:     Center of mass";
     "#        Energy        Angle         Data          ";
     "#        MeV           degrees       barns/ster    ";
     "        1.5           60.0          0.0123        ";
     "        "])).
Proof. split; [vm_compute; reflexivity|]. split; [vm_compute; reflexivity|]. split; [vm_compute; reflexivity|]. vm_compute. reflexivity. Qed.

(** Any heading counts: with incident energies in the center-of-mass system, angles and cross
    sections in the laboratory system are said to be in the former, too. *)
Definition energy85 : str := text_of
  ["SUBENT        10001002   20200101";
   "BIB                  1          1";
   "REACTION   (26-FE-56(N,EL)26-FE-56,,DA)";
   "ENDBIB               1";
   "NOCOMMON             0          0";
   "DATA                 3          1";
   "EN-CM      ANG        DATA";
   "MEV        ADEG       MB/SR";
   " 1.5        60.       12.3";
   "ENDDATA              3";
   "ENDSUBENT            9"].
Theorem C85_other_column_refuted : exists n ds errs n' d, X4Entry e1 [main85; energy85] = Ok n /\
  getDataSets nm85 n [] = Ok (ds, errs, n') /\ dget key_eqb key85 ds = Some d /\ ds_class_of d = AngularDist /\
  ds_frame d = Some (lit "Center of mass") /\
  (forall l, In l (t_labels (ds_table d)) -> mentions l (lit "-CM") -> l = lit "EN-CM") /\ In (lit "ANG") (t_labels (ds_table d)).
Proof.
  assert (X : match X4Entry e1 [main85; energy85] with
              | Ok n => match getDataSets nm85 n [] with
                        | Ok (ds, _, _) => match dget key_eqb key85 ds with
                                           | Some d => summary d = (AngularDist, false, map lit ["EN-CM"; "ANG"; "DATA"], Some (lit "Center of mass"))
                                           | None => False end
                        | Raise _ => False end
              | Raise _ => False end) by (vm_compute; reflexivity).
  destruct (X4Entry e1 [main85; energy85]) as [n|]; [|destruct X].
  destruct (getDataSets nm85 n []) as [[[ds errs] n']|] eqn:G; [|destruct X].
  destruct (dget key_eqb key85 ds) as [d|] eqn:D; [|destruct X].
  unfold summary in X. exists n, ds, errs, n', d. split; [reflexivity|]. split; [exact G|]. split; [exact D|].
  assert (L : t_labels (ds_table d) = map lit ["EN-CM"; "ANG"; "DATA"]) by congruence.
  split; [congruence|]. split; [congruence|]. rewrite L. split; [|right; left; reflexivity].
  intros l I (a & b & M). cbn [map In] in I.
  assert (Q : existsb (Ascii.eqb "-") l = true) by (rewrite M; apply existsb_exists; exists "-"%char; split; [apply in_or_app; right; left; reflexivity|reflexivity]).
  destruct I as [<-|[<-|[<-|[]]]]; [reflexivity|discriminate|discriminate].
Qed.
Print Assumptions C85_other_column_refuted.

(** A data set made without data and filled with append keeps the frame of no headings. *)
Theorem C85_append_refuted : exists d d', append nm85 false (empty_dataset AngularDist [] None None) d = Ok d' /\
  distribution (ds_class_of d) /\ frame_right (ds_class_of d) (t_labels (ds_table d)) (ds_frame d) /\
  distribution (ds_class_of d') /\ says_cm (t_labels (ds_table d')) /\ ds_frame d' = Some (lit "Lab").
Proof.
  exists (mkDS AngularDist no_meta None None
            (mkTable (map lit ["EN"; "ANG-CM"; "DATA"]) (map (fun u => Some (lit u)) ["MEV"; "ADEG"; "B/SR"]) [])
            false false (Some (lit "Center of mass"))).
  eexists. split; [vm_compute; reflexivity|]. split; [left; reflexivity|].
  assert (S : says_cm (map lit ["EN"; "ANG-CM"; "DATA"])).
  { exists (lit "ANG-CM"). split; [right; left; reflexivity|]. exists (lit "ANG"), []. reflexivity. }
  split; [|split; [left; reflexivity|split; [exact S|reflexivity]]]. split; [|intros N; contradict N; left; reflexivity].
  intros _. eexists. split; [reflexivity|]. split; [reflexivity|]. intros N. contradiction.
Qed.
Print Assumptions C85_append_refuted.
