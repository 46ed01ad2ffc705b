(** Vocabulary for dictionaries, element names and reactions. *)
From Coq Require Import String List Ascii NArith ZArith Bool Arith.
From Verif.Model Require Import Py Particle Reaction.
From Verif.Spec Require Import Text.
Import ListNotations.
Local Open Scope list_scope.

(** A text whose first character is number [from] of a line, cut at the given positions of
    that line. *)
Fixpoint cut (from : nat) (breaks : list nat) (rest : list ascii) : list (list ascii) :=
  match breaks with
  | [] => [rest]
  | b :: bs => firstn (b - from) rest :: cut b bs (skipn (b - from) rest)
  end.
Definition pieces (breaks : list nat) (line : list ascii) : list (list ascii) := cut 0 breaks line.

Fixpoint ascending (from : nat) (breaks : list nat) : Prop :=
  match breaks with [] => True | b :: bs => from <= b /\ ascending b bs end.

(** A number surrounded by blanks. *)
Definition number_text (n : nat) (s : list ascii) : Prop :=
  exists a ds b, s = a ++ digits_text ds ++ b /\ num_blank a /\ num_blank b /\
    is_digits ds /\ ds <> [] /\ value10 ds = N.of_nat n.

(** A header line [anything = number] of a dictionary file. *)
Definition count_line (n : nat) (line : list ascii) : Prop :=
  exists pre s, line = pre ++ "="%char :: s /\ number_text n s.

Fixpoint comma_list (items : list (list ascii)) : list ascii :=
  match items with
  | [] => []
  | [x] => x
  | x :: l => x ++ ","%char :: comma_list l
  end.

(** A header line [anything = [ b1, b2, ... ]] of a dictionary file. *)
Definition breaks_line (breaks : list nat) (line : list ascii) : Prop :=
  exists pre a items b, line = pre ++ "="%char :: a ++ "["%char :: comma_list items ++ "]"%char :: b /\
    blank a /\ blank b /\ Forall2 number_text breaks items.

(** [line] defines [key] with these fields: the pieces of its text between the breaks,
    without blanks at their ends. *)
Definition defines (breaks : list nat) (line key : list ascii) (fields : list (list ascii)) : Prop :=
  exists core, trimmed line core /\ core <> [] /\ Forall2 trimmed (pieces breaks core) (key :: fields).

(** The lookup table described by the lines: the last line that defines a key counts. *)
Definition last_definition (breaks : list nat) (body : list (list ascii)) (key : list ascii)
  (fields : list (list ascii)) : Prop :=
  exists before line after, body = before ++ line :: after /\ defines breaks line key fields /\
    forall l f, In l after -> ~ defines breaks l key f.

(** The texts of Z and A of a nucleus or isomer object. *)
Definition nucleus_name (p : particle) : option (list ascii * list ascii) :=
  match p with PNucleus z _ a | PIsomer z _ a _ => Some (z, a) | _ => None end.

(** The isomeric states an object stands for (none: the ground state as such), each of them a
    number written in digits. *)
Definition nucleus_states (p : particle) : list (list ascii) :=
  match p with PIsomer _ _ _ states => states | _ => [] end.
Definition state_number (s : list ascii) : Prop :=
  exists ds, s = digits_text ds /\ is_digits ds /\ ds <> [].

(** The reactions of a combination from left to right, those of nested isomer combinations in
    the place of the combination. *)
Inductive left_to_right : list element -> list reaction -> Prop :=
| ltr_nil : left_to_right [] []
| ltr_operator : forall s data l, left_to_right data l -> left_to_right (EOp s :: data) l
| ltr_reaction : forall r data l, left_to_right data l -> left_to_right (ERxn r :: data) (r :: l)
| ltr_isomers : forall inner data l1 l2, left_to_right inner l1 -> left_to_right data l2 ->
    left_to_right (EIso inner :: data) (l1 ++ l2).

(** Z and A of the particles and nuclei of a product list, added up; strings, None and
    chemical compounds have none. *)
Definition has_nucleons (x : product) : Prop :=
  exists p, x = RPart p /\ forall c s z, p <> PCompound c s z.
Inductive nuclear_sum : list product -> Z -> Z -> Prop :=
| nuclear_nil : nuclear_sum [] 0 0
| nuclear_part : forall p l z a zs sa,
    has_nucleons (RPart p) -> getZ p = Ok z -> getA p = Ok a -> nuclear_sum l zs sa ->
    nuclear_sum (RPart p :: l) (z + zs) (a + sa)
| nuclear_other : forall x l zs sa,
    ~ has_nucleons x -> nuclear_sum l zs sa -> nuclear_sum (x :: l) zs sa.

(** The process codes after which the target is left as it was. *)
Definition scattering_codes : list (list ascii) :=
  map list_ascii_of_string ["EL"; "INL"; "SCT"; "THS"]%string.

(** How one term of a reaction expression becomes an element of the combination: operators and
    brackets are kept, anything else is a reaction (or an isomer combination). *)
Definition operators : list (list ascii) :=
  map list_ascii_of_string ["("; ")"; "+"; "-"; "*"; "/"; "="; "//"]%string.

(** The equation [eq] over the reactions [rxns] spells the combination [data]: reaction number
    i (from 0) appears as [rxn i] where it stood, everything else is verbatim. *)
Inductive spells : nat -> list element -> list reaction -> list (list ascii) -> Prop :=
| spells_nil : forall i, spells i [] [] []
| spells_op : forall i s data rxns eq, spells i data rxns eq ->
    spells i (EOp s :: data) rxns (s :: eq)
| spells_rxn : forall i r data rxns eq, spells (S i) data rxns eq ->
    spells i (ERxn r :: data) (r :: rxns)
      ((list_ascii_of_string "rxn " ++ nat_to_str i) :: eq).

(** The particle grammar accepts this code as one particle symbol. *)
Definition parses_as (g : grammars) (s : string) : Prop := g_particle g (lit s) = Some [PTok (lit s)].
