(** How EXFOR reaction codes are written: as sequences of tokens.  Only [ptree], the type of
    parsed pieces (a text or a list of pieces), is taken from the model. *)
From Coq Require Import String List Ascii NArith ZArith Bool Arith.
From Verif.Model Require Import Particle.
From Verif.Spec Require Import Text.
Import ListNotations.
Local Open Scope string_scope.
Local Open Scope list_scope.

Definition tx (s : string) : list ascii := list_ascii_of_string s.

(** Blanks and line ends. *)
Definition gap (c : ascii) : Prop := In (N_of_ascii c) [10; 13; 32]%N.
(** [spaced ts s]: the text [s] consists of the tokens [ts], each with any number of blanks and
    line ends before it. *)
Inductive spaced : list (list ascii) -> list ascii -> Prop :=
| spaced_nil : spaced [] []
| spaced_cons : forall w t ts s, Forall gap w -> spaced ts s -> spaced (t :: ts) (w ++ t ++ s).

Definition digit (c : ascii) : Prop := (48 <= N_of_ascii c <= 57)%N.
Definition capital (c : ascii) : Prop := (65 <= N_of_ascii c <= 90)%N.
Definition letter (c : ascii) : Prop := capital c \/ (97 <= N_of_ascii c <= 122)%N.
Definition nonempty (P : ascii -> Prop) (s : list ascii) : Prop := s <> [] /\ Forall P s.

(** ** Nuclides: 26-FE-56, 95-AM-242-M1, 49-IN-115-M/T *)

(** One part of an isomer code: - + * or /, one of the letters m M g G T L, a number or
    nothing. *)
Record isomer := mkIsomer { i_op : ascii; i_letter : ascii; i_number : list ascii }.
Record nuclide := mkNuclide { n_Z : list ascii; n_sym : list ascii; n_A : list ascii; n_iso : list isomer }.

Definition good_isomer (i : isomer) : Prop :=
  In (i_op i) (tx "+-*/") /\ In (i_letter i) (tx "mMgGTL") /\ Forall digit (i_number i).
Definition good_nuclide (n : nuclide) : Prop :=
  nonempty digit (n_Z n) /\ nonempty digit (n_A n) /\ Forall good_isomer (n_iso n) /\
  exists c t, n_sym n = c :: t /\ capital c /\ (t = [] \/ exists d, t = [d] /\ letter d).

Definition number_tokens (s : list ascii) : list (list ascii) := match s with [] => [] | _ => [s] end.
Definition isomer_tokens (i : isomer) : list (list ascii) :=
  [i_op i] :: [i_letter i] :: number_tokens (i_number i).
Definition nuclide_tokens (n : nuclide) : list (list ascii) :=
  [n_Z n; tx "-"; n_sym n; tx "-"; n_A n] ++ flat_map isomer_tokens (n_iso n).
Definition nuclide_tree (n : nuclide) : ptree :=
  PGroup (map PTok ([n_Z n; n_sym n; n_A n] ++ flat_map isomer_tokens (n_iso n))).

(** ** Particles and process codes: N, HE3, INL; 2N; nuclides *)

(** Letters, then digits. *)
Definition word (s : list ascii) : Prop :=
  exists a b, s = a ++ b /\ nonempty letter a /\ Forall digit b.

Inductive pcode :=
| CNuclide (n : nuclide)
| CWord (w : list ascii)
| CMany (count w : list ascii).
Definition code_tokens (x : pcode) : list (list ascii) :=
  match x with CNuclide n => nuclide_tokens n | CWord w => [w] | CMany c w => [c; w] end.
Definition code_tree (x : pcode) : ptree :=
  match x with
  | CNuclide n => nuclide_tree n
  | CWord w => PTok w
  | CMany c w => PGroup [PTok c; PTok w]
  end.

(** The particle dictionary lists codes of letters and digits that start with a letter, the
    zero, and codes like B+. *)
Definition particle_key (k : list ascii) : Prop :=
  k = tx "0" \/ exists c t, k = c :: t /\ letter c.
(** A product code is not to be misread as the beginning of another particle (B and B+), nor as
    X followed by a particle. *)
Definition good_product (keys : list (list ascii)) (x : pcode) : Prop :=
  match x with
  | CNuclide n => good_nuclide n
  | CWord w => word w /\ (forall t, w = "X"%char :: t -> t = []) /\
               forall k t, In k keys -> k = w ++ t -> Forall (fun c => letter c \/ digit c) k
  | CMany c w => nonempty digit c /\ word w
  end.
(** Several products are separated by plus signs; no nuclide may stand before one, because the
    plus sign and a following G, T, L or M would be read as part of an isomer code. *)
Definition good_products (keys : list (list ascii)) (l : list pcode) : Prop :=
  l <> [] /\ Forall (good_product keys) l /\
  forall a x b, l = a ++ x :: b -> b <> [] -> forall n, x <> CNuclide n.

Fixpoint separated (sep : list ascii) (l : list (list (list ascii))) : list (list ascii) :=
  match l with
  | [] => []
  | [x] => x
  | x :: l' => x ++ sep :: separated sep l'
  end.

(** A chemical compound: 26-FE-OXI, 1-H-D2O. *)
Definition compound_key (k : list ascii) : Prop :=
  exists z s c t, k = z ++ tx "-" ++ s ++ tx "-" ++ c :: t /\
    nonempty digit z /\ nonempty letter s /\ letter c /\ Forall (fun d => letter d \/ digit d) t.

(** ** Reactions: (26-FE-56(N,2N)26-FE-55,,SIG) *)
Definition quantity_char (c : ascii) : Prop := letter c \/ digit c \/ In c (tx "/*+-").
Definition quantity_word (w : list ascii) : Prop :=
  exists c t, w = c :: t /\ letter c /\ Forall quantity_char t.

Record rcode := mkRcode {
  rc_target : nuclide; rc_projectile : pcode; rc_products : list pcode; rc_residual : option nuclide;
  rc_quantities : list (option (list ascii)) }.       (* what follows each comma *)

Definition process_tokens (r : rcode) : list (list ascii) :=
  nuclide_tokens (rc_target r) ++ [tx "("] ++ code_tokens (rc_projectile r) ++ [tx ","] ++
  separated (tx "+") (map code_tokens (rc_products r)) ++ [tx ")"] ++
  match rc_residual r with Some n => nuclide_tokens n | None => [] end.
Definition quantity_tokens (q : option (list ascii)) : list (list ascii) :=
  tx "," :: match q with Some w => [w] | None => [] end.
Definition reaction_tokens (r : rcode) : list (list ascii) :=
  [tx "("] ++ process_tokens r ++ flat_map quantity_tokens (rc_quantities r) ++ [tx ")"].

Definition process_tree (r : rcode) : list ptree :=
  nuclide_tree (rc_target r) :: code_tree (rc_projectile r) :: map code_tree (rc_products r) ++
  match rc_residual r with Some n => [nuclide_tree n] | None => [] end.
Definition quantities (r : rcode) : list (list ascii) :=
  flat_map (fun q => match q with Some w => [w] | None => [] end) (rc_quantities r).
Definition reaction_tree (r : rcode) : list ptree :=
  PGroup (process_tree r) :: map PTok (quantities r).

Definition good_projectile (x : pcode) : Prop :=
  match x with CNuclide n => good_nuclide n | CWord w => word w \/ w = tx "0" | CMany _ _ => False end.
Definition good_reaction (particle_keys : list (list ascii)) (r : rcode) : Prop :=
  good_nuclide (rc_target r) /\ good_projectile (rc_projectile r) /\
  good_products particle_keys (rc_products r) /\
  (forall n, rc_residual r = Some n -> good_nuclide n) /\
  (forall w, In (Some w) (rc_quantities r) -> quantity_word w).

(** The rest of a field after its reaction: it does not go on with an operator. *)
Definition after_reaction (k : list ascii) : Prop :=
  forall w c t, Forall gap w -> k = w ++ c :: t -> ~ In c (tx "*/=+-").

(** ** Combinations of reactions: ((...)/(...))

    The tokens of a combination, and the pieces it is to be read as: every reaction one piece,
    every operator and outer parenthesis one text.  [reaction ts l]: the tokens [ts] are a
    reaction, which is to be read as [l]. *)
Section Combinations.
Variable reaction : list (list ascii) -> list ptree -> Prop.
Inductive cfactor : list (list ascii) -> list ptree -> Prop :=
| cf_reaction : forall ts l, reaction ts l -> cfactor ts [PGroup l]
| cf_paren : forall ts l, cexpr ts l -> cfactor (tx "(" :: ts ++ [tx ")"]) (PTok (tx "(") :: l ++ [PTok (tx ")")])
with cterm : list (list ascii) -> list ptree -> Prop :=
| ct_factor : forall ts l, cfactor ts l -> cterm ts l
| ct_times : forall op ts l ts' l', In op [tx "*"; tx "//"; tx "/"; tx "="] -> cterm ts l -> cfactor ts' l' ->
    cterm (ts ++ op :: ts') (l ++ PTok op :: l')
with cexpr : list (list ascii) -> list ptree -> Prop :=
| ce_term : forall ts l, cterm ts l -> cexpr ts l
| ce_plus : forall op ts l ts' l', In op [tx "+"; tx "-"] -> cexpr ts l -> cterm ts' l' ->
    cexpr (ts ++ op :: ts') (l ++ PTok op :: l').
End Combinations.

(** The text up to the end of the line. *)
Definition line_of (line k : list ascii) : Prop :=
  Forall (fun c => N_of_ascii c <> 10%N) line /\
  (k = line \/ exists t, k = line ++ ascii_of_N 10 :: t).

(** The text of a field: the tokens of a code, then free text, whose first line (without the
    blanks before it) is [line]; no tabs. *)
Definition in_field (ts : list (list ascii)) (line text : list ascii) : Prop :=
  exists s w k, text = s ++ w ++ k /\ spaced ts s /\
    Forall gap w /\ (forall a t, k = a :: t -> ~ gap a) /\ after_reaction (w ++ k) /\ line_of line k /\
    ~ In (ascii_of_N 9) text.
