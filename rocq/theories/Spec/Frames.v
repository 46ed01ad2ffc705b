(** The frame of reference that the column headings of a data set state. *)
From Coq Require Import String List Ascii.
From Verif.Model Require Import Py PyFloat Columns Dataset.
From Verif.Spec Require Import Exfor.
Import ListNotations.
Local Open Scope string_scope.
Local Open Scope list_scope.

(** The kinds of data sets that have a frame *)
Definition distribution (c : ds_class) : Prop := c = AngularDist \/ c = EnergyDist.
(** Some heading says that its values are meant in the center-of-mass system. *)
Definition says_cm (labels : list (list ascii)) : Prop :=
  exists l, In l labels /\ mentions l (list_ascii_of_string "-CM").
Definition frame_stated (labels : list (list ascii)) (frame : list ascii) : Prop :=
  (says_cm labels -> frame = list_ascii_of_string "Center of mass") /\
  (~ says_cm labels -> frame = list_ascii_of_string "Lab").
(** The frame a data set of this kind and with these headings ought to have *)
Definition frame_right (c : ds_class) (labels : list (list ascii)) (frame : option (list ascii)) : Prop :=
  (distribution c -> exists f, frame = Some f /\ frame_stated labels f) /\
  (~ distribution c -> frame = None).
