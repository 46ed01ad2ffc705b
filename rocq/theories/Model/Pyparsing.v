(** x4i3/pyparsing3.py (the vendored pyparsing 2.4.6): the parser elements that the grammars of
    exfor_grammers.py are built from.  No proofs here.

    A position in the text is represented by the rest of the text from there.  Results are
    lists of [ptree]; failure (ParseException, also one made from an IndexError) is None.

    Not modelled: error messages and positions, results names, debugging, packrat caching (never
    enabled), ignorables (never set), and Python's recursion limit. *)
From Coq Require Import String List Ascii NArith ZArith Bool Arith.
From Verif.Model Require Import Py Particle.
Import ListNotations.
Local Open Scope string_scope.
Local Open Scope list_scope.
Local Open Scope nat_scope.

Definition presult : Type := option (list ptree * str).

(** A ParserElement: callPreparse, skipWhitespace, and parseImpl followed by postParse.  The
    boolean argument of [impl] is false inside a Combine, where leaveWhitespace has been applied
    to (copies of) all elements (pyparsing3.py:5107-5110, 2427-2433, 3881-3888, 4449-4454). *)
Record pe := mkPe { callpre : bool; skipws : bool; impl : bool -> str -> presult }.

(** DEFAULT_WHITE_CHARS, pyparsing3.py:1355 *)
Definition is_white (c : ascii) : bool := cmem c [" "%char; nl; ch 9; cr].

(** preParse, pyparsing3.py:1622-1632 *)
Fixpoint skip_white (s : str) : str :=
  match s with c :: s' => if is_white c then skip_white s' else s | [] => [] end.

(** _parseNoCache, pyparsing3.py:1641-1708; [pre] is callPreParse. *)
Definition run (e : pe) (ws pre : bool) (s : str) : presult :=
  impl e ws (if pre && callpre e && skipws e && ws then skip_white s else s).

Definition is_some {A} (o : option A) : bool := match o with Some _ => true | None => false end.

(** * Tokens *)

(** The longest prefix of characters satisfying [p], and the rest. *)
Fixpoint span (p : ascii -> bool) (s : str) : str * str :=
  match s with
  | c :: s' => if p c then let '(a, b) := span p s' in (c :: a, b) else ([], s)
  | [] => ([], [])
  end.

(** Literal, pyparsing3.py:2840-2886.  The empty literal (class Empty) is not modelled. *)
Definition Literal (m : str) : pe :=
  mkPe true true (fun _ s =>
    match m with
    | [] => None
    | _ => if is_prefix m s then Some ([PTok m], skipn (length m) s) else None
    end).

(** Word without max (3160-3179 compiles it to the regular expression [init][body]* ; the other
    implementation, 3181-3207, used when the set contains a blank, agrees with it) *)
Definition Word2 (ini body : ascii -> bool) : pe :=
  mkPe true true (fun _ s =>
    match s with
    | c :: s' => if ini c then let '(a, b) := span body s' in Some ([PTok (c :: a)], b) else None
    | [] => None
    end).
Definition Word (p : ascii -> bool) : pe := Word2 p p.

(** Word with max, 3181-3207: at most [mx] characters, and the next one must not be a body
    character. *)
Definition WordMax (ini body : ascii -> bool) (mx : nat) : pe :=
  mkPe true true (fun _ s =>
    match s with
    | c :: s' => if ini c then
                   let '(a, b) := span body s' in
                   if S (length a) <=? mx then Some ([PTok (c :: a)], b) else None
                 else None
    | [] => None
    end).

(** CharsNotIn with exact=1, 3545-3602 *)
Definition CharNotIn (bad : ascii -> bool) : pe :=
  mkPe true false (fun _ s =>
    match s with c :: s' => if bad c then None else Some ([PTok [c]], s') | [] => None end).

(** restOfLine = Regex('.*').leaveWhitespace(), 6357 *)
Definition restOfLine : pe :=
  mkPe true false (fun _ s =>
    let '(a, b) := span (fun c => negb (Ascii.eqb c nl)) s in Some ([PTok a], b)).

(** LineEnd, 3754-3772 (used only under NotAny inside Combine: no skipping) *)
Definition LineEnd : pe :=
  mkPe true false (fun _ s =>
    match s with
    | c :: s' => if Ascii.eqb c nl then Some ([PTok [nl]], s') else None
    | [] => Some ([], [])
    end).

Definition is_hex (c : ascii) : bool := cmem c (lit "0123456789abcdefABCDEF").

(** The regular expression of a quoted string without its closing quote, 6106-6107:
    the quote, then any number of: a character other than the quote, newlines and the backslash;
    two quotes; a backslash and a character other than x; a backslash, x and hex digits.  The
    repetition is greedy and nothing follows it, so the matcher never has to give back.
    [n] bounds the rounds. *)
Fixpoint quoted_body (n : nat) (q : ascii) (s : str) : str * str :=
  match n, s with
  | S n, c :: s' =>
      if Ascii.eqb c q then
        match s' with
        | d :: s'' => if Ascii.eqb d q then let '(a, b) := quoted_body n q s'' in (c :: d :: a, b)
                      else ([], s)
        | [] => ([], s)
        end
      else if Ascii.eqb c "\"%char then
        match s' with
        | d :: s'' =>
            if Ascii.eqb d "x"%char then
              match span is_hex s'' with
              | ([], _) => ([], s)
              | (h, r) => let '(a, b) := quoted_body n q r in (c :: d :: h ++ a, b)
              end
            else let '(a, b) := quoted_body n q s'' in (c :: d :: a, b)
        | [] => ([], s)
        end
      else if Ascii.eqb c nl || Ascii.eqb c cr then ([], s)
      else let '(a, b) := quoted_body n q s' in (c :: a, b)
  | _, _ => ([], s)
  end.
Definition QuoteStart (q : ascii) : pe :=
  mkPe true true (fun _ s =>
    match s with
    | c :: s' => if Ascii.eqb c q
                 then let '(a, b) := quoted_body (length s') q s' in Some ([PTok (c :: a)], b)
                 else None
    | [] => None
    end).

(** * Combinations *)

(** And.parseImpl, pyparsing3.py:4032-4054, after streamline has merged nested Ands
    (3912-3942); the empty And does not occur. *)
Fixpoint and_rest (l : list pe) (ws : bool) (s : str) : presult :=
  match l with
  | [] => Some ([], s)
  | e :: l' =>
      match run e ws true s with
      | Some (t, s') => match and_rest l' ws s' with Some (t', s'') => Some (t ++ t', s'') | None => None end
      | None => None
      end
  end.
Definition And (e : pe) (l : list pe) : pe :=
  mkPe true (skipws e) (fun ws s =>
    match run e ws false s with
    | Some (t, s') => match and_rest l ws s' with Some (t', s'') => Some (t ++ t', s'') | None => None end
    | None => None
    end).

(** Or.parseImpl, 4109-4162: the longest match, the first of them if there are several.  The
    same for merged (3912-3942) and for nested Ors. *)
Definition longer (a b : presult) : presult :=
  match a, b with
  | Some (_, ra), Some (_, rb) => if length rb <? length ra then b else a
  | None, _ => b
  | _, None => a
  end.
Definition Or (l : list pe) : pe :=
  mkPe false true (fun ws s => fold_left longer (map (fun e => run e ws true s) l) None).

(** MatchFirst.parseImpl, 4232-4258 *)
Fixpoint first_of (l : list pe) (ws : bool) (s : str) : presult :=
  match l with
  | [] => None
  | e :: l' => match run e ws true s with Some r => Some r | None => first_of l' ws s end
  end.
Definition MatchFirst (l : list pe) : pe := mkPe false true (first_of l).

(** Optional.parseImpl, 4830-4843; [default] is what is returned without a match ([[]] when no
    default is given). *)
Definition OptionalD (e : pe) (default : list ptree) : pe :=
  mkPe (callpre e) (skipws e) (fun ws s =>
    match run e ws false s with Some r => Some r | None => Some (default, s) end).
Definition Optional (e : pe) : pe := OptionalD e [].

(** The while loop of _MultipleMatch, 4683-4696.  A body that matches without consuming anything
    would loop for ever in Python; no grammar has one, so a text of length n allows at most n
    rounds. *)
Fixpoint loop (n : nat) (e : pe) (ws : bool) (s : str) : list ptree * str :=
  match n with
  | O => ([], s)
  | S n => match run e ws true s with
           | Some (t, s') => let '(t', s'') := loop n e ws s' in (t ++ t', s'')
           | None => ([], s)
           end
  end.
(** OneOrMore, 4669-4698 *)
Definition OneOrMore (e : pe) : pe :=
  mkPe (callpre e) (skipws e) (fun ws s =>
    match run e ws false s with
    | Some (t, s') => let '(t', s'') := loop (length s') e ws s' in Some (t ++ t', s'')
    | None => None
    end).
(** ZeroOrMore, 4762-4766 *)
Definition ZeroOrMore (e : pe) : pe :=
  mkPe (callpre e) (skipws e) (fun ws s =>
    match run e ws false s with
    | Some (t, s') => let '(t', s'') := loop (length s') e ws s' in Some (t ++ t', s'')
    | None => Some ([], s)
    end).

(** NotAny, 4632-4643; canParseNext calls tryParse (1710-1723). *)
Definition NotAny (e : pe) : pe :=
  mkPe (callpre e) false (fun ws s => if is_some (run e ws true s) then None else Some ([], s)).

(** Group and Suppress, 5145-5150, 5242-5244 *)
Definition Group (e : pe) : pe :=
  mkPe (callpre e) (skipws e) (fun ws s =>
    match run e ws false s with Some (t, s') => Some ([PGroup t], s') | None => None end).
Definition Suppress (e : pe) : pe :=
  mkPe (callpre e) (skipws e) (fun ws s =>
    match run e ws false s with Some (_, s') => Some ([], s') | None => None end).

(** Combine, 5105-5128: the tokens joined to one *)
Fixpoint flat (t : ptree) : str :=
  match t with PTok s => s | PGroup l => concat (map flat l) end.
Definition Combine (e : pe) : pe :=
  mkPe true true (fun _ s =>
    match run e false false s with
    | Some (t, s') => Some ([PTok (concat (map flat t))], s')
    | None => None
    end).

(** setParseAction(lambda t: t[0].strip()), 6182, on an element that returns one token *)
Definition strip_action (e : pe) : pe :=
  mkPe (callpre e) (skipws e) (fun ws s =>
    match impl e ws s with
    | Some (PTok t :: _, s') => Some ([PTok (strip t)], s')
    | r => r
    end).

(** Forward, 4971-5076: what is defined by <<.  Recursion is unrolled: see nestedExpr and
    compound_expression. *)
Definition Forward (e : pe) : pe :=
  mkPe true (skipws e) (fun ws s => run e ws false s).
(** A parser element that matches nothing: the end of an unrolling. *)
Definition NoMatch : pe := mkPe true true (fun _ _ => None).

(** * Helpers *)

(** delimitedList, 5312-5333, as the list of elements of its And *)
Definition delimited (e : pe) (delim : str) : list pe :=
  [e; ZeroOrMore (And (Suppress (Literal delim)) [e])].
Definition delimitedList (e : pe) (delim : str) : pe :=
  And e [ZeroOrMore (And (Suppress (Literal delim)) [e])].

(** quotedString, 6106-6107 *)
Definition quotedString : pe :=
  Combine (MatchFirst [And (QuoteStart (ch 34)) [Literal [ch 34]];
                       And (QuoteStart (ch 39)) [Literal [ch 39]]]).

(** nestedExpr(), 6172-6208.  Each level of the recursion consumes a parenthesis, so a text of
    length n nests less than n deep; [depth] is the number of levels unrolled. *)
Definition nested_content : pe :=
  strip_action (Combine (OneOrMore (And (NotAny quotedString)
    [CharNotIn (fun c => Ascii.eqb c "("%char || Ascii.eqb c ")"%char || is_white c)]))).
Fixpoint nestedExpr (depth : nat) : pe :=
  match depth with
  | O => NoMatch
  | S depth =>
      Forward (Group (And (Suppress (Literal (lit "(")))
        [ZeroOrMore (MatchFirst [quotedString; nestedExpr depth; nested_content]);
         Suppress (Literal (lit ")"))]))
  end.

(** printables, 285: string.printable without whitespace *)
Definition is_printable (c : ascii) : bool := ((33 <=? code c) && (code c <=? 126))%N.

(** _commasepitem and commaSeparatedList, 6370-6373 *)
Definition commasepitem : pe :=
  Combine (OneOrMore (And (Word (fun c => is_printable c && negb (Ascii.eqb c ","%char)))
    [Optional (And (Word (fun c => cmem c [sp; ch 9])) [NotAny (Literal (lit ",")); NotAny LineEnd])])).
Definition commaSeparatedList : pe :=
  delimitedList (OptionalD (MatchFirst [quotedString; commasepitem]) [PTok []]) (lit ",").

(** str.expandtabs(), called by parseString; [col] is the column modulo 8. *)
Fixpoint expandtabs_from (col : nat) (s : str) : str :=
  match s with
  | [] => []
  | c :: s' =>
      if Ascii.eqb c (ch 9) then repeat sp (8 - col) ++ expandtabs_from 0 s'
      else c :: expandtabs_from (if Ascii.eqb c nl || Ascii.eqb c cr then 0 else (S col) mod 8) s'
  end.
Definition expandtabs (s : str) : str := expandtabs_from 0 s.

(** parseString, pyparsing3.py:1895-1949, parseAll=False: what follows the match is ignored. *)
Definition parseString (e : pe) (s : str) : option (list ptree) :=
  match run e true true (expandtabs s) with Some (t, _) => Some t | None => None end.
