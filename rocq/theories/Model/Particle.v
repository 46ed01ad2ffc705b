(** x4i3/exfor_particle.py: particles, nuclei, isomers.  No proofs here. *)
From Coq Require Import String List Ascii NArith ZArith Bool Arith.
From Verif.Model Require Import Py Dicts.
Import ListNotations.
Local Open Scope string_scope.
Local Open Scope list_scope.
Local Open Scope nat_scope.

(** A piece of a pyparsing result: a str, or a nested ParseResults. *)
Inductive ptree := PTok (s : str) | PGroup (l : list ptree).

(** What the code calls in pyparsing: parseString of each grammar of exfor_grammers.py that
    is used, None when it raises ParseException. *)
Record grammars := mkGrammars {
  g_particle : str -> option (list ptree);          (* exfor_grammers.py:81 *)
  g_nucleus : str -> option (list ptree);           (* 84-85 *)
  g_chemical : str -> option (list ptree);          (* 86-87 *)
  g_process : str -> option (list ptree);           (* 99-100 *)
  g_reaction : str -> option (list ptree);          (* 103-104 *)
  g_compound : str -> option (list ptree);          (* 106-109 *)
  g_reactionfield : str -> option (list ptree);     (* 111 *)
  g_textfield : str -> option (list ptree);         (* 131-148 *)
  g_refcode : str -> option (list ptree);           (* 153 *)
  g_refcodetautology : str -> option (list ptree);  (* 154-155 *)
  g_comma : str -> option (list str) }.             (* 151, commaSeparatedList *)

(** exfor_particle.py:46-72 *)
Definition x4ZMap : list (str * Z) :=
  map (fun x => (lit (fst x), snd x))
    [("0", 0); ("G", 0); ("AR", 0); ("N", 0); ("P", 1); ("AP", -1); ("AN", 0); ("H", 1);
     ("D", 1); ("T", 1); ("A", 2); ("HE3", 2); ("HE2", 2); ("PI", 0); ("PI0", 0); ("P0", 0);
     ("PIP", 1); ("ETA", 0); ("PIN", -1); ("KP", 1); ("KN", -1); ("E", -1); ("B", -1);
     ("B+", 1); ("B-", -1); ("XR", 0)]%Z.
(** exfor_particle.py:73-99 *)
Definition x4AMap : list (str * Z) :=
  map (fun x => (lit (fst x), snd x))
    [("0", 0); ("G", 0); ("AR", 0); ("N", 1); ("P", 1); ("AP", -1); ("AN", -1); ("H", 1);
     ("D", 2); ("T", 3); ("A", 4); ("HE3", 3); ("HE2", 2); ("PI", 0); ("PI0", 0); ("P0", 0);
     ("PIP", 0); ("ETA", 0); ("PIN", 0); ("KP", 0); ("KN", 0); ("E", 0); ("B", 0);
     ("B+", 0); ("B-", 0); ("XR", 0)]%Z.
(** exfor_particle.py:105-116 *)
Definition x4Hadrons : list (str * str) :=
  map (fun x => (lit (fst x), lit (snd x)))
    [("N", "n"); ("P", "p"); ("AP", "anti-p"); ("AN", "anti-n"); ("PI0", "pi0"); ("P0", "pi0");
     ("PIP", "pi+"); ("PIN", "pi-"); ("KP", "K+"); ("KN", "K-"); ("ETA", "eta")].

(** The multiplicity: an int, or the string 'X'. *)
Inductive pnum := NInt (z : Z) | NX.

(** The particle classes.  Z and A of nuclei are strings (exfor_particle.py:262-264). *)
Inductive particle :=
| PParticle (num : pnum) (sym : str) (Z A : Z)            (* X4Particle *)
| PVariable (sym : str)                                   (* X4VariableParticle *)
| PNucleus (Z sym A : str)                                (* X4Nucleus *)
| PElement (Z sym A : str)                                (* X4Element *)
| PIsomer (Z sym A : str) (isomers : list str)            (* X4Isomer *)
| PCompound (code sym : str) (Z : Z).                     (* X4ChemicalCompound *)

(** A method call such as [.lower()] on a piece: lists do not have it. *)
Definition tok (t : ptree) : res str :=
  match t with PTok s => Ok s | PGroup _ => Raise AttributeError end.

(** exfor_particle.py:198-209 *)
Definition particle_of_list (x : list ptree) : res particle :=
  '(num, sym) <- (if 1 <? length x then
                    n <- idx x 0 ;;
                    num <- match n with
                           | PTok s => of_option ValueError (int_of_str s)
                           | PGroup _ => Raise TypeError
                           end ;;
                    sym <- idx x 1 ;;
                    Ok (NInt num, sym)
                  else
                    x0 <- idx x 0 ;;
                    match x0 with
                    | PTok [] => Raise IndexError
                    | PTok (c :: s) => if Ascii.eqb c "X"%char then Ok (NX, PTok s)
                                       else Ok (NInt 1, PTok (c :: s))
                    | PGroup [] => Raise IndexError
                    | PGroup _ => Raise AttributeError
                    end) ;;
  s <- tok sym ;;
  z <- of_option KeyError (dget str_eqb (upper s) x4ZMap) ;;
  a <- of_option KeyError (dget str_eqb (upper s) x4AMap) ;;
  Ok (PParticle num s z a).

(** exfor_particle.py:179-209.  For a ParseResults argument, line 191 first parses 'N' (a
    constant; its result is thrown away) and line 193 lower-cases. *)
Definition X4Particle (g : grammars) (x : ptree) : res particle :=
  match x with
  | PTok s =>
      if str_eqb s (lit "0") then Ok (PParticle (NInt 0) (lit "0") 0 0)
      else l <- of_option ParticleParsingError (g_particle g (upper s)) ;; particle_of_list l
  | PGroup l =>
      _ <- of_option ParticleParsingError (g_particle g (lit "N")) ;;
      ss <- map_res tok l ;; particle_of_list (map (fun s => PTok (lower s)) ss)
  end.

(** exfor_particle.py:254-264 and 127-132: the three attributes.  Simplified: a nested group
    in the place of Z or A (which the grammar cannot produce) is outside the model. *)
Definition nucleus_parts (g : grammars) (x : ptree) : res (list ptree * (str * str * str)) :=
  l <- match x with
       | PTok s => of_option ParticleParsingError (g_nucleus g s)
       | PGroup l => Ok l
       end ;;
  z <- idx l 0 ;; sym <- idx l 1 ;; sym <- tok sym ;; a <- idx l 2 ;;
  match z, a with
  | PTok z, PTok a => Ok (l, (z, capitalize sym, a))
  | _, _ => Raise OutsideModel
  end.

Definition X4Nucleus (g : grammars) (x : ptree) : res particle :=
  r <- nucleus_parts g x ;; let '(_, (z, s, a)) := r in Ok (PNucleus z s a).
Definition X4Element (g : grammars) (x : ptree) : res particle :=
  r <- nucleus_parts g x ;; let '(_, (z, s, a)) := r in Ok (PElement z s a).

(** exfor_particle.py:255-264 for a list of strings [[str(Z), symbol, str(A)]], the symbol
    possibly None. *)
Definition X4Nucleus_of_parts (z : str) (sym : option str) (a : str) : res particle :=
  match sym with Some s => Ok (PNucleus z (capitalize s) a) | None => Raise AttributeError end.

(** exfor_particle.py:313: math with several states in the isomer part. *)
Definition isomer_math (mods : list str) : bool :=
  ((smem (lit "G") mods || smem (lit "T") mods) && smem (lit "M") mods)
  || (1 <? length (filter (str_eqb (lit "M")) mods)).

(** exfor_particle.py:302-318: one round of the loop; [more] is len(x) > i + 1. *)
Definition isomer_step (ignore : bool) (mods : list str) (isomers : list str) (m : str) (more : bool)
  : res (list str) :=
  let isomers :=
    if str_eqb (lower m) (lit "g") then isomers ++ [lit "0"]
    else if str_eqb (lower m) (lit "m") && more then isomers
    else if str_isdigit m then isomers ++ [m]
    else if str_eqb (lower m) (lit "t") then isomers
    else isomers ++ [lit "1"] in
  if isomer_math mods then
    if negb ignore then Raise IsomerMathParsingError
    else Ok (isomers ++ map (fun c => [c]) (concat mods))
  else Ok isomers.

Fixpoint isomer_loop (ignore : bool) (mods : list str) (rest : list str) (isomers : list str)
  : res (list str) :=
  match rest with
  | [] => Ok isomers
  | m :: rest' =>
      isomers <- isomer_step ignore mods isomers m (match rest' with [] => false | _ => true end) ;;
      isomer_loop ignore mods rest' isomers
  end.

(** exfor_particle.py:294-318 *)
Definition X4Isomer (g : grammars) (ignore : bool) (x : ptree) : res particle :=
  r <- nucleus_parts g x ;;
  let '(l, (z, s, a)) := r in
  mods <- map_res tok (skipn 4 l) ;;
  isomers <- isomer_loop ignore mods mods [] ;;
  Ok (PIsomer z s a isomers).

(** exfor_particle.py:357-362 *)
Definition X4VariableParticle (s : str) : particle := PVariable s.

(** exfor_particle.py:376-382 *)
Definition X4ChemicalCompound (g : grammars) (x : ptree) : res particle :=
  l <- match x with
       | PTok s => of_option ParticleParsingError (g_chemical g s)
       | PGroup l => Ok l
       end ;;
  x0 <- idx l 0 ;; code <- tok x0 ;;
  let parts := split_char "-"%char code in
  sym <- idx parts 1 ;;
  z <- idx parts 0 ;;
  z <- of_option ValueError (int_of_str z) ;;
  Ok (PCompound code sym z).

(** * Accessors *)

Definition times (n : pnum) (z : Z) : Z := match n with NX => z | NInt k => (k * z)%Z end.

(** exfor_particle.py:141-144, 364-367 *)
Definition getZ (p : particle) : res Z :=
  match p with
  | PParticle n _ z _ => Ok (times n z)
  | PVariable _ => Ok (-3000)%Z
  | PNucleus z _ _ | PElement z _ _ | PIsomer z _ _ _ => of_option ValueError (int_of_str z)
  | PCompound _ _ z => Ok z
  end.
(** exfor_particle.py:146-149, 347-348, 369-370, 395-396 *)
Definition getA (p : particle) : res Z :=
  match p with
  | PParticle n _ _ a => Ok (times n a)
  | PVariable _ | PElement _ _ _ | PCompound _ _ _ => Ok (-3000)%Z
  | PNucleus _ _ a | PIsomer _ _ a _ => of_option ValueError (int_of_str a)
  end.

(** [self.num > 1], exfor_particle.py:223, 245 *)
Definition several (n : pnum) : res bool :=
  match n with NInt k => Ok (1 <? k)%Z | NX => Raise TypeError end.

(** exfor_particle.py:222-242 (num is 1 for X4VariableParticle) *)
Definition particle_pretty (n : pnum) (sym : str) : res str :=
  m <- several n ;;
  let ans := if m then match n with NInt k => z_to_str k | NX => [] end else [] in
  Ok (match dget str_eqb sym x4Hadrons with
      | Some h => h
      | None =>
          match sym with
          | [c] => if str_eqb sym (lit "A") then ans ++ lit "alpha"
                   else if str_eqb sym (lit "G") then ans ++ lit "gamma"
                   else if str_eqb sym (lit "0") then ans ++ lit "None"
                   else if str_eqb sym (lit "B") then ans ++ lit "beta"
                   else ans ++ lower sym
          | _ => ans ++ capitalize sym
          end
      end).

(** exfor_particle.py:244-248 *)
Definition particle_exfor (n : pnum) (sym : str) : res str :=
  m <- several n ;;
  Ok (if m then match n with NInt k => z_to_str k ++ sym | NX => sym end else sym).

(** exfor_particle.py:280-283 *)
Definition nucleus_exfor (z sym a : str) : str :=
  if str_eqb sym (lit "Nn") then lit "n" else z ++ lit "-" ++ upper sym ++ lit "-" ++ a.

Definition single_one (isomers : list str) : bool :=
  match isomers with [i] => str_eqb i (lit "1") | _ => false end.

(** str(particle): prettyStyle, exfor_particle.py:222-242, 285-288, 337-341, 350-351, 407-408;
    [compounds] is X4DictionaryServer()["Compounds"]. *)
Definition pretty (compounds : x4dict) (p : particle) : res str :=
  match p with
  | PParticle n s _ _ => particle_pretty n s
  | PVariable s => particle_pretty (NInt 1) s
  | PNucleus _ s a => Ok (if str_eqb s (lit "Nn") then lit "n" else a ++ s)
  | PElement _ s _ => Ok (lit "nat" ++ s)
  | PIsomer _ s a iso => Ok (if single_one iso then a ++ lit "m" ++ s
                             else a ++ lit "m" ++ join (lit ",") iso ++ s)
  | PCompound code _ _ => l <- of_option KeyError (dget str_eqb code compounds) ;; idx l 0
  end.

(** repr(particle): exforStyle, exfor_particle.py:244-248, 280-283, 331-335, 404-405 *)
Definition exfor (p : particle) : res str :=
  match p with
  | PParticle n s _ _ => particle_exfor n s
  | PVariable s => particle_exfor (NInt 1) s
  | PNucleus z s a | PElement z s a => Ok (nucleus_exfor z s a)
  | PIsomer z s a iso => Ok (if single_one iso then nucleus_exfor z s a ++ lit "-M"
                             else nucleus_exfor z s a ++ lit "-M" ++ join (lit "+M") iso)
  | PCompound code _ _ => Ok code
  end.

(** exfor_particle.py:166-167, 277-278, 320-329, 401-402 *)
Definition za (z a : str) : str := lit "za" ++ zfill 3 z ++ zfill 3 a.
Definition endlZAStyle (p : particle) : res (option str) :=
  match p with
  | PParticle _ _ _ _ | PVariable _ => Ok None
  | PNucleus z _ a | PElement z _ a => Ok (Some (za z a))
  | PIsomer z _ a iso =>
      Ok (Some (if single_one iso then za z a ++ lit "m"
                else za z a ++ concat (map (fun i => if str_eqb i (lit "0") then lit "g" else lit "m" ++ i) iso)))
  | PCompound _ _ _ => Raise NotImplementedError
  end.
