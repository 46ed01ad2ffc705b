(** x4i3/exfor_reactions.py: processes, reactions and combinations of reactions.
    No proofs here. *)
From Coq Require Import String List Ascii NArith ZArith Bool Arith.
From Verif.Model Require Import Py Dicts Particle.
Import ListNotations.
Local Open Scope string_scope.
Local Open Scope list_scope.
Local Open Scope nat_scope.

(** exfor_reactions.py:57-70 *)
Definition x4ReactionMap : list (str * str) :=
  map (fun x => (lit (fst x), lit (snd x)))
    [("TOT", "Total"); ("EL", "Elastic"); ("ABS", "Absorption"); ("INL", "Inelastic");
     ("TCC", "TotalChargeChanging"); ("FUS", "Fusion"); ("NON", "Nonelastic");
     ("SCT", "Scattering"); ("F", "Fission"); ("PAI", "PairProduction");
     ("THS", "ThermalScattering"); ("X", "Unspecified"); ("0", "None")].

(** An element of self.products, or self.residual: a string, a particle object, or None (the
    fall-through of setParticleType). *)
Inductive product := RStr (s : str) | RPart (p : particle) | RNone.

(** exfor_reactions.py:117-144.  [str] arguments are PTok, ParseResults are PGroup. *)
Definition setParticleType (g : grammars) (ignore : bool) (i : ptree) : res product :=
  match i with
  | PTok s =>
      if smem s [lit "ELEM"; lit "MASS"; lit "ELEM/MASS"; lit "X"; lit "NPART"]
      then Ok (RPart (X4VariableParticle s))
      else p <- X4Particle g i ;; Ok (RPart p)
  | PGroup il =>
      match il with
      | [_; _; t2] =>
          s <- tok t2 ;;
          if str_isdigit s then
            if str_eqb s (lit "0") then p <- X4Element g i ;; Ok (RPart p)
            else p <- X4Nucleus g i ;; Ok (RPart p)
          else Ok RNone
      | _ :: _ :: _ :: _ :: _ => p <- X4Isomer g ignore i ;; Ok (RPart p)
      | [_; _] => p <- X4Particle g i ;; Ok (RPart p)
      | [t0] =>
          if 4 <? match t0 with PTok s => length s | PGroup l => length l end
          then p <- X4ChemicalCompound g t0 ;; Ok (RPart p)
          else p <- X4Particle g i ;; Ok (RPart p)
      | [] => p <- X4Particle g i ;; Ok (RPart p)
      end
  end.

(** exfor_reactions.py:146-150 *)
Definition setProduct (g : grammars) (ignore : bool) (i : ptree) : res product :=
  match i with
  | PTok s => if dhas str_eqb s x4ReactionMap then Ok (RStr s) else setParticleType g ignore i
  | PGroup _ => setParticleType g ignore i
  end.

(** getZ and getA of an attribute that may be None or a string: AttributeError. *)
Definition prodZ (p : product) : res Z :=
  match p with RPart p => getZ p | _ => Raise AttributeError end.
Definition prodA (p : product) : res Z :=
  match p with RPart p => getA p | _ => Raise AttributeError end.

(** [channel in self.products]: objects are never equal to a string. *)
Definition has_channel (c : str) (l : list product) : bool :=
  existsb (fun p => match p with RStr s => str_eqb s c | _ => false end) l.

(** exfor_reactions.py:157-158 *)
Definition leave_target : list str :=
  map lit ["EL"; "Elastic"; "SCT"; "Scattering"; "THS"; "ThermalScattering"; "INL"; "Inelastic"].

(** isinstance(prod, X4Nucleus) or isinstance(prod, X4Particle), exfor_reactions.py:170 *)
Definition counts (p : product) : bool :=
  match p with RPart (PCompound _ _ _) | RStr _ | RNone => false | RPart _ => true end.

(** exfor_reactions.py:167-174: (Zout, Aout, can_compute_residual) *)
Definition out_step (heavy : bool) (st : Z * Z * bool) (p : product) : res (Z * Z * bool) :=
  let '(z, a, can) := st in
  if counts p && heavy then zp <- prodZ p ;; ap <- prodA p ;; Ok ((z + zp)%Z, (a + ap)%Z, can)
  else Ok (z, a, false).

(** exfor_reactions.py:195-196: [residual in products], then remove the first one.  Objects
    are only equal to themselves and the residual is not in the list; None and strings are
    compared by value. *)
Definition same_value (r p : product) : bool :=
  match r, p with
  | RStr a, RStr b => str_eqb a b
  | RNone, RNone => true
  | _, _ => false
  end.
Fixpoint remove_first (r : product) (l : list product) : list product :=
  match l with
  | [] => []
  | p :: l' => if same_value r p then l' else p :: remove_first r l'
  end.

(** exfor_reactions.py:178-191, the residual from what is left *)
Definition computed_residual (g : grammars) (dz da : Z) : res product :=
  match X4Nucleus_of_parts (z_to_str dz) (endl_ZSymbol dz) (z_to_str da) with
  | Raise AttributeError =>
      if ((dz =? -1) && (da =? 0))%Z then p <- X4Particle g (PTok (lit "E")) ;; Ok (RPart p)
      else if ((dz =? 1) && (da =? 0))%Z then p <- X4Particle g (PTok (lit "B+")) ;; Ok (RPart p)
      else if ((1000 <? Z.abs dz) || (1000 <? Z.abs da))%Z then Ok RNone
      else Raise ResidualNucleusError
  | Raise e => Raise e
  | Ok p => Ok (RPart p)
  end.

(** exfor_reactions.py:152-196: the new (products, residual) *)
Definition setResidual (g : grammars) (targ proj : product) (products : list product)
  : res (list product * product) :=
  ta <- prodA targ ;;
  match find (fun c => has_channel c products) leave_target with
  | Some channel => Ok ([RStr channel], targ)
  | None =>
      tz <- prodZ targ ;; pz <- prodZ proj ;;
      ta' <- prodA targ ;; pa <- prodA proj ;;
      let zin := (tz + pz)%Z in
      let ain := (ta' + pa)%Z in
      '(zout, aout, can) <- fold_res (out_step (zin <? ain)%Z) products
                              (0%Z, 0%Z, negb (ta =? 0)%Z) ;;
      '(products, residual) <-
         (if ((zin =? zout) && (ain =? aout))%Z then
            r <- last_of products ;; Ok (but_last products, r)
          else if can then r <- computed_residual g (zin - zout) (ain - aout) ;; Ok (products, r)
          else Ok (products, RNone)) ;;
      Ok (remove_first residual products, residual)
  end.

(** exfor_reactions.py:198-204 *)
Definition prod_str (compounds : x4dict) (p : product) : res str :=
  match p with
  | RStr s => Ok (match dget str_eqb s x4ReactionMap with Some t => t | None => s end)
  | RPart p => pretty compounds p
  | RNone => Ok (lit "None")
  end.
Definition setProcessType (compounds : x4dict) (products : list product) : res str :=
  l <- map_res (prod_str compounds) products ;; Ok (join (lit "+") l).

Record process := mkProcess {
  p_targ : product; p_proj : product; p_products : list product; p_residual : product;
  p_type : str }.

(** exfor_reactions.py:78-90 for a ParseResults; [compounds] is the dictionary of compounds. *)
Definition process_of_results (g : grammars) (compounds : x4dict) (ignore : bool) (xl : list ptree)
  : res process :=
  x0 <- idx xl 0 ;; targ <- setParticleType g ignore x0 ;;
  x1 <- idx xl 1 ;; proj <- setParticleType g ignore x1 ;;
  products <- map_res (setProduct g ignore) (skipn 2 xl) ;;
  '(products, residual) <- setResidual g targ proj products ;;
  t <- setProcessType compounds products ;;
  Ok (mkProcess targ proj products residual t).

(** exfor_reactions.py:106-115 *)
Definition X4Process (g : grammars) (compounds : x4dict) (ignore : bool) (x : ptree) : res process :=
  xl <- match x with
        | PTok s => of_option ReactionParsingError (g_process g s)
        | PGroup l => Ok l
        end ;;
  process_of_results g compounds ignore xl.

(** str() and repr() of targets, projectiles and residuals. *)
Definition part_str (compounds : x4dict) (p : product) : res str :=
  match p with RStr s => Ok s | RPart p => pretty compounds p | RNone => Ok (lit "None") end.
(** repr(s) is s in quotes; the strings that occur are codes of x4ReactionMap and the channel
    names, which need no escapes. *)
Definition part_repr (p : product) : res str :=
  match p with
  | RStr s => Ok (lit "'" ++ s ++ lit "'")
  | RPart p => exfor p
  | RNone => Ok (lit "None")
  end.
Definition truthy (p : product) : bool :=
  match p with RNone => false | RStr [] => false | _ => true end.

(** exfor_reactions.py:92-97 *)
Definition process_str (compounds : x4dict) (p : process) : res str :=
  t <- part_str compounds (p_targ p) ;; j <- part_str compounds (p_proj p) ;;
  r <- (if truthy (p_residual p) then part_str compounds (p_residual p) else Ok []) ;;
  Ok (t ++ lit "(" ++ j ++ lit "," ++ p_type p ++ lit ")" ++ r).

(** exfor_reactions.py:99-104 *)
Definition process_repr (p : process) : res str :=
  t <- part_repr (p_targ p) ;; j <- part_repr (p_proj p) ;;
  ps <- map_res part_repr (p_products p) ;;
  r <- (if truthy (p_residual p) then part_repr (p_residual p) else Ok []) ;;
  Ok (upper (replace_char "'"%char [] (t ++ lit "(" ++ j ++ lit "," ++ join (lit "+") ps ++ lit ")" ++ r))).

(** * X4Reaction *)

Record reaction := mkReaction { r_process : process; r_quant : list ptree }.

(** exfor_reactions.py:229-241: a parse error is an IsomerMathParsingError when the text has a
    slash or a plus. *)
Definition reaction_parse (g : grammars) (s : str) : res (list ptree) :=
  match g_reaction g s with
  | Some l => Ok l
  | None => if cmem "/"%char s || cmem "+"%char s then Raise IsomerMathParsingError
            else Raise ReactionParsingError
  end.

(** exfor_reactions.py:217-221.  When x[0] is a string, X4Process.__init__ calls the
    overriding parse. *)
Definition X4Reaction (g : grammars) (compounds : x4dict) (ignore : bool) (x : ptree) : res reaction :=
  l <- match x with PTok s => reaction_parse g s | PGroup l => Ok l end ;;
  x0 <- idx l 0 ;;
  xl <- match x0 with PTok s => reaction_parse g s | PGroup l => Ok l end ;;
  p <- process_of_results g compounds ignore xl ;;
  Ok (mkReaction p (skipn 1 l)).

Definition is_tok (s : str) (t : ptree) : bool :=
  match t with PTok s' => str_eqb s s' | PGroup _ => false end.

(** exfor_reactions.py:243-244 *)
Definition has_quantity (r : reaction) (i : str) : bool := existsb (is_tok i) (r_quant r).

(** [sep.join(l)] where l should be strings: TypeError otherwise. *)
Definition join_toks (sep : str) (l : list ptree) : res str :=
  ss <- map_res (fun t => match t with PTok s => Ok s | PGroup _ => Raise TypeError end) l ;;
  Ok (join sep ss).

(** exfor_reactions.py:246-263 *)
Definition getReactionType (quantities modifiers : x4dict) (r : reaction) : res str :=
  q <- join_toks (lit ",") (r_quant r) ;;
  match dget str_eqb q quantities with
  | Some l => idx l 0
  | None =>
      let qs := map (fun t => match t with PTok s => s | PGroup _ => [] end) (r_quant r) in
      pre <- match find (fun i => dhas str_eqb i modifiers) qs with
             | Some i => l <- of_option KeyError (dget str_eqb i modifiers) ;;
                         t <- idx l 0 ;; Ok (t ++ lit " ")
             | None => Ok []
             end ;;
      match find (fun i => dhas str_eqb i quantities) (qs ++ map (fun x => lit "," ++ x) qs) with
      | Some i => l <- of_option KeyError (dget str_eqb i quantities) ;;
                  t <- idx l 0 ;; Ok (pre ++ t)
      | None => Ok pre
      end
  end.

(** exfor_reactions.py:223-227 *)
Definition reaction_str (compounds quantities modifiers : x4dict) (r : reaction) : res str :=
  t <- getReactionType quantities modifiers r ;;
  p <- process_str compounds (r_process r) ;;
  Ok (t ++ lit " for " ++ p).
Definition reaction_repr (r : reaction) : res str :=
  p <- process_repr (r_process r) ;; q <- join_toks (lit ",") (r_quant r) ;;
  Ok (lit "(" ++ p ++ lit "," ++ q ++ lit ")").

(** * Combinations *)

(** An element of X4ReactionCombination.data. *)
Inductive element := EOp (s : str) | ERxn (r : reaction) | EIso (data : list element).

(** What a REACTION field holds: X4Reaction, X4ReactionCombination or
    X4ReactionIsomerCombination. *)
Inductive measurement := MRxn (r : reaction) | MComb (data : list element) | MIso (data : list element).

(** exfor_reactions.py:290; exfor_field.py:160 *)
Definition math_symbols : list str := map lit ["("; ")"; "+"; "-"; "*"; "/"; "="; "//"].

(** '-'.join(x) etc. of a ParseResults or str: the characters of a str are its elements. *)
Definition join_tree (sep : str) (t : ptree) : res str :=
  match t with
  | PTok s => Ok (join sep (map (fun c => [c]) s))
  | PGroup l => join_toks sep l
  end.
Definition tree_len (t : ptree) : nat := match t with PTok s => length s | PGroup l => length l end.

(** exfor_reactions.py:378-387: the residuals of the isomer math; inl is a list of parts, inr
    a math symbol. *)
Fixpoint resid_loop (prefix : list str) (things : list str) (acc : list (list str + str))
  : res (list (list str + str)) :=
  match things with
  | [] => Ok acc
  | t :: things' =>
      if smem t (map lit ["-"; "+"; "="; "/"; "//"]) then resid_loop prefix things' (acc ++ [inr t])
      else if smem t (map lit ["0"; "1"; "2"; "3"; "4"; "5"]) then
        match rev acc with
        | inl parts :: racc =>
            resid_loop prefix things' (rev racc ++ [inl (but_last parts ++ [last parts [] ++ t])])
        | _ => Raise TypeError
        end
      else resid_loop prefix things' (acc ++ [inl (prefix ++ [t])])
  end.

(** exfor_reactions.py:341-399.  Simplified: nested groups inside the target, projectile,
    product and residual codes (which the grammar does not produce) raise TypeError.  A string plus a
    ParseResults (line 357) calls ParseResults.__radd__, which adds them again and so calls itself for
    ever (pyparsing3.py:868-874). *)
Definition repack (x : list ptree) : res str :=
  x <- match x with
       | [PGroup l] => Ok l
       | [PTok s] => Ok (map (fun c => PTok [c]) s)
       | _ => Ok x
       end ;;
  ugly <- idx x 0 ;;
  rxn <- match ugly with
         | PGroup l => Ok l
         | PTok s => Ok (map (fun c => PTok [c]) s)
         end ;;
  quant <- idx x 1 ;;
  quant <- match quant with
           | PTok q => Ok (if cmem ","%char q then q else lit "," ++ q)
           | PGroup _ => Raise RecursionError
           end ;;
  t <- idx rxn 0 ;;
  targ <- (if 3 <? tree_len t then
             match t with
             | PGroup l => a <- join_toks (lit "-") (firstn 3 l) ;; b <- join_toks [] (skipn 4 l) ;;
                           Ok (a ++ lit "-" ++ b)
             | PTok s => a <- join_tree (lit "-") (PTok (firstn 3 s)) ;; Ok (a ++ lit "-" ++ skipn 4 s)
             end
           else join_tree (lit "-") t) ;;
  j <- idx rxn 1 ;;
  proj <- match j with PTok s => Ok s | PGroup _ => join_tree (lit "-") j end ;;
  proc <- map_res (fun p => match p with PTok s => Ok s | PGroup _ => join_tree [] p end)
                  (but_last (skipn 2 rxn)) ;;
  let proc := join (lit "+") proc in
  resid <- last_of rxn ;;
  parts <- match resid with
           | PGroup l => map_res (fun t => match t with PTok s => Ok s | PGroup _ => Raise TypeError end) l
           | PTok s => _ <- idx s 4 ;; Raise TypeError
           end ;;
  m0 <- idx parts 4 ;;
  residList <- resid_loop (firstn 3 parts) (skipn 5 parts) [inl (firstn 3 parts ++ [m0])] ;;
  Ok (lit "(" ++
      concat (map (fun p => match p with
                            | inl parts => lit "(" ++ targ ++ lit "(" ++ proj ++ lit "," ++ proc ++ lit ")"
                                           ++ join (lit "-") parts ++ lit "," ++ quant ++ lit ")"
                            | inr s => s
                            end) residList) ++
      lit ")").

Definition caught {A} (e : exn) (r : res A) (handler : res A) : res A :=
  match r with Raise e' => if exn_eqb e e' then handler else r | Ok _ => r end.

(** exfor_reactions.py:269-296 and 334-339, mutually recursive; Python's recursion limit is
    [depth]. *)
Fixpoint iso_data (depth : nat) (g : grammars) (compounds : x4dict) (x : list ptree)
  : res (list element) :=
  match depth with
  | O => Raise RecursionError
  | S depth =>
      s <- repack x ;;
      l <- of_option ReactionParsingError (g_compound g s) ;;
      map_res (fun i =>
        match i with
        | PTok t => if smem t math_symbols then Ok (EOp t)
                    else caught IsomerMathParsingError
                           (r <- X4Reaction g compounds false i ;; Ok (ERxn r))
                           (l' <- of_option ReactionParsingError (g_compound g t) ;;
                            d <- iso_data depth g compounds l' ;; Ok (EIso d))
        | PGroup l => caught IsomerMathParsingError
                        (r <- X4Reaction g compounds false i ;; Ok (ERxn r))
                        (d <- iso_data depth g compounds l ;; Ok (EIso d))
        end) l
  end.

(** exfor_reactions.py:289-296 *)
Definition getStrOrX4Reaction (depth : nat) (g : grammars) (compounds : x4dict) (i : ptree) : res element :=
  match i with
  | PTok t => if smem t math_symbols then Ok (EOp t)
              else caught IsomerMathParsingError
                     (r <- X4Reaction g compounds false i ;; Ok (ERxn r))
                     (l' <- of_option ReactionParsingError (g_compound g t) ;;
                      d <- iso_data depth g compounds l' ;; Ok (EIso d))
  | PGroup l => caught IsomerMathParsingError
                  (r <- X4Reaction g compounds false i ;; Ok (ERxn r))
                  (d <- iso_data depth g compounds l ;; Ok (EIso d))
  end.

(** exfor_reactions.py:269-276 *)
Definition X4ReactionCombination (depth : nat) (g : grammars) (compounds : x4dict) (x : list ptree)
  : res (list element) := map_res (getStrOrX4Reaction depth g compounds) x.

(** exfor_field.py:158-165 *)
Definition getMeasurementType (depth : nat) (g : grammars) (compounds : x4dict) (x : list ptree)
  : res measurement :=
  caught IsomerMathParsingError
    (if existsb (fun i => existsb (is_tok i) x) math_symbols
     then d <- X4ReactionCombination depth g compounds x ;; Ok (MComb d)
     else x0 <- idx x 0 ;; r <- X4Reaction g compounds false x0 ;; Ok (MRxn r))
    (d <- iso_data depth g compounds x ;; Ok (MIso d)).

(** exfor_reactions.py:298-306: self.reaction_list *)
Fixpoint element_reactions (e : element) : list reaction :=
  match e with
  | EOp _ => []
  | ERxn r => [r]
  | EIso data => flat_map element_reactions data
  end.
Definition getReactionList (data : list element) : list reaction := flat_map element_reactions data.

(** exfor_reactions.py:308-314 *)
Definition comb_has_quantity (data : list element) (i : str) : res bool :=
  match getReactionList data with
  | [] => Raise TypeError
  | l => Ok (existsb (fun r => has_quantity r i) l)
  end.

(** The [quantity] attribute: of a reaction, a list; of a combination, the string "Coupled". *)
Definition m_quantity (m : measurement) : ptree :=
  match m with MRxn r => PGroup (r_quant r) | MComb _ | MIso _ => PTok (lit "Coupled") end.

(** exfor_reactions.py:316-329 (print_gizmo).  str(j) is evaluated for every part, also for repr;
    only an operator prints like an operator. *)
Fixpoint element_str (compounds quantities modifiers : x4dict) (e : element) : res str :=
  match e with
  | EOp s => Ok s
  | ERxn r => reaction_str compounds quantities modifiers r
  | EIso data =>
      (fix go l := match l with
                   | [] => Ok []
                   | j :: l' => s <- element_str compounds quantities modifiers j ;;
                                rest <- go l' ;;
                                Ok ((match j with EOp _ => s | _ => lit "( " ++ s ++ lit " )" end) ++ rest)
                   end) data
  end.
Fixpoint element_repr (compounds quantities modifiers : x4dict) (e : element) : res str :=
  match e with
  | EOp s => Ok s
  | ERxn r => reaction_repr r
  | EIso data =>
      (fix go l := match l with
                   | [] => Ok []
                   | j :: l' => s <- element_str compounds quantities modifiers j ;;
                                t <- match j with
                                     | EOp _ => Ok s
                                     | _ => r <- element_repr compounds quantities modifiers j ;;
                                            Ok (lit "( " ++ r ++ lit " )")
                                     end ;;
                                rest <- go l' ;;
                                Ok (t ++ rest)
                   end) data
  end.
(** str and repr of a measurement: a combination prints like the isomer combination. *)
Definition measurement_str (compounds quantities modifiers : x4dict) (m : measurement) : res str :=
  match m with
  | MRxn r => reaction_str compounds quantities modifiers r
  | MComb data | MIso data => element_str compounds quantities modifiers (EIso data)
  end.
Definition measurement_repr (compounds quantities modifiers : x4dict) (m : measurement) : res str :=
  match m with
  | MRxn r => reaction_repr r
  | MComb data | MIso data => element_repr compounds quantities modifiers (EIso data)
  end.

(** exfor_field.py:196-214 *)
Definition getX4ReactionList (m : measurement) : list reaction :=
  match m with
  | MRxn r => [r]
  | MComb data | MIso data => flat_map (fun e => match e with ERxn r => [r] | _ => [] end) data
  end.

(** exfor_field.py:167-194, schematic=True: inl is a plain string, inr a list. *)
Fixpoint schematic (i : nat) (data : list element) : list str :=
  match data with
  | [] => []
  | EOp s :: d => s :: schematic i d
  | _ :: d => (lit "rxn " ++ nat_to_str i) :: schematic (S i) d
  end.
Definition getEquation_schematic (m : measurement) : str + list str :=
  match m with
  | MRxn _ => inl (lit "rxn 0")
  | MComb data | MIso data => inr (schematic 0 data)
  end.
