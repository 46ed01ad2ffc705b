(** What a grammar of parser elements reads in a text, without any bound on the length of the
    text, the number of repetitions or the depth of the recursion.  A text for which the rules
    below give no outcome would make a parser run for ever. *)
From Coq Require Import String List Ascii NArith Bool Arith.
From Verif.Model Require Import Particle.
Import ListNotations.
Local Open Scope list_scope.

(** The pieces read and the rest of the text, or nothing if the text does not fit. *)
Definition outcome : Type := option (list ptree * list ascii).

(** ** Tabs *)

(** What is parsed is the text with blanks up to the next column divisible by eight for every tab;
    columns are counted from the last end of a line.  [untabbed col s t]: [t] stands for [s], the
    first character being in column [col]. *)
Inductive untabbed : nat -> list ascii -> list ascii -> Prop :=
| untabbed_end : forall col, untabbed col [] []
| untabbed_tab : forall col n s t, 0 < n <= 8 -> Nat.divide 8 (col + n) -> untabbed (col + n) s t ->
    untabbed col (ascii_of_N 9 :: s) (repeat " "%char n ++ t)
| untabbed_line : forall col c s t, c = ascii_of_N 10 \/ c = ascii_of_N 13 -> untabbed 0 s t -> untabbed col (c :: s) (c :: t)
| untabbed_char : forall col c s t, c <> ascii_of_N 9 -> c <> ascii_of_N 10 -> c <> ascii_of_N 13 ->
    untabbed (S col) s t -> untabbed col (c :: s) (c :: t).

(** ** Tokens *)

Inductive token :=
| TLit (m : list ascii)                          (** just this text *)
| TWord (first more : ascii -> bool)             (** as many characters as possible *)
| TShort (first more : ascii -> bool) (most : nat)  (** the same, if not longer than that *)
| TOne (bad : ascii -> bool)                     (** one character that is not bad *)
| TLine                                          (** the rest of the line *)
| TEnd                                           (** the end of a line or of the text *)
| TQuote (q : ascii).                            (** a quotation mark and the text it opens *)

Definition newline : ascii := ascii_of_N 10.
Definition hex (c : ascii) : bool :=
  existsb (Ascii.eqb c) (list_ascii_of_string "0123456789abcdefABCDEF").
(** [r] does not begin with such a character. *)
Definition ends (p : ascii -> bool) (r : list ascii) : Prop :=
  match r with c :: _ => p c = false | [] => True end.

(** The inside of a quotation: [quoted q a r], of the text [a ++ r] it is [a].  A doubled
    quotation mark and a backslash with what it protects belong to it. *)
Definition stops (q : ascii) (r : list ascii) : Prop :=
  match r with
  | [] => True
  | c :: t =>
      if Ascii.eqb c q then match t with d :: _ => d <> q | [] => True end
      else if Ascii.eqb c "\"%char then
        match t with d :: t' => d = "x"%char /\ ends hex t' | [] => True end
      else c = newline \/ c = ascii_of_N 13
  end.
Inductive quoted (q : ascii) : list ascii -> list ascii -> Prop :=
| quoted_stop : forall r, stops q r -> quoted q [] r
| quoted_char : forall c a r, c <> q -> c <> "\"%char -> c <> newline -> c <> ascii_of_N 13 ->
    quoted q a r -> quoted q (c :: a) r
| quoted_twice : forall a r, quoted q a r -> quoted q (q :: q :: a) r
| quoted_back : forall d a r, "\"%char <> q -> d <> "x"%char -> quoted q a r -> quoted q ("\"%char :: d :: a) r
| quoted_hex : forall h a r, "\"%char <> q -> h <> [] -> forallb hex h = true -> ends hex (a ++ r) ->
    quoted q a r -> quoted q ("\"%char :: "x"%char :: h ++ a) r.

Inductive reads : token -> list ascii -> outcome -> Prop :=
| reads_lit : forall m r, m <> [] -> reads (TLit m) (m ++ r) (Some ([PTok m], r))
| reads_lit_not : forall m s, m = [] \/ (forall r, s <> m ++ r) -> reads (TLit m) s None
| reads_word : forall p q c a r, p c = true -> forallb q a = true -> ends q r ->
    reads (TWord p q) (c :: a ++ r) (Some ([PTok (c :: a)], r))
| reads_word_not : forall p q s, ends p s -> reads (TWord p q) s None
| reads_short : forall p q n c a r, p c = true -> forallb q a = true -> ends q r -> length (c :: a) <= n ->
    reads (TShort p q n) (c :: a ++ r) (Some ([PTok (c :: a)], r))
| reads_short_not : forall p q n s, ends p s -> reads (TShort p q n) s None
| reads_short_long : forall p q n c a r, p c = true -> forallb q a = true -> ends q r -> n < length (c :: a) ->
    reads (TShort p q n) (c :: a ++ r) None
| reads_one : forall p c r, p c = false -> reads (TOne p) (c :: r) (Some ([PTok [c]], r))
| reads_one_bad : forall p c r, p c = true -> reads (TOne p) (c :: r) None
| reads_one_none : forall p, reads (TOne p) [] None
| reads_line : forall a r, ~ In newline a -> (r = [] \/ exists t, r = newline :: t) ->
    reads TLine (a ++ r) (Some ([PTok a], r))
| reads_end : forall r, reads TEnd (newline :: r) (Some ([PTok [newline]], r))
| reads_end_text : reads TEnd [] (Some ([], []))
| reads_end_not : forall c r, c <> newline -> reads TEnd (c :: r) None
| reads_quote : forall q a r, quoted q a r -> reads (TQuote q) (q :: a ++ r) (Some ([PTok (q :: a)], r))
| reads_quote_not : forall q s, ends (Ascii.eqb q) s -> reads (TQuote q) s None.

(** ** Grammars *)

Inductive gx :=
| GTok (k : token)
| GAnd (e : gx) (l : list gx)             (** one after the other *)
| GOr (l : list gx)                       (** the longest *)
| GFirst (l : list gx)                    (** the first that fits *)
| GOpt (e : gx) (otherwise : list ptree)
| GSome (e : gx)                          (** one or more *)
| GAny (e : gx)                           (** any number *)
| GNot (e : gx)                           (** not here *)
| GGroup (e : gx)                         (** what is read becomes one piece *)
| GDrop (e : gx)                          (** what is read is dropped *)
| GJoin (e : gx)                          (** what is read, without blanks between, becomes one text *)
| GStrip (e : gx)                         (** blanks around the text are dropped *)
| GRef (n : nat).                         (** a name: recursion *)

(** Which elements skip blanks before they read: those called so, and of them those that do. *)
Fixpoint skipping (g : gx) : bool :=
  match g with
  | GTok (TOne _ | TLine | TEnd) | GNot _ => false
  | GTok _ | GOr _ | GFirst _ | GJoin _ | GRef _ => true
  | GAnd e _ | GOpt e _ | GSome e | GAny e | GGroup e | GDrop e | GStrip e => skipping e
  end.
Fixpoint before (g : gx) : bool :=
  match g with
  | GOr _ | GFirst _ => false
  | GTok _ | GAnd _ _ | GJoin _ | GRef _ => true
  | GOpt e _ | GSome e | GAny e | GNot e | GGroup e | GDrop e | GStrip e => before e
  end.
Definition blank (c : ascii) : bool := existsb (Ascii.eqb c) [" "%char; newline; ascii_of_N 9; ascii_of_N 13].
Fixpoint unblank (s : list ascii) : list ascii :=
  match s with c :: s' => if blank c then unblank s' else s | [] => [] end.
(** Where [g] begins to read; [ws] is false inside of a [GJoin]. *)
Definition start (g : gx) (ws : bool) (s : list ascii) : list ascii :=
  if before g && skipping g && ws then unblank s else s.

Definition more (t : list ptree) (o : outcome) : outcome :=
  match o with Some (t', r) => Some (t ++ t', r) | None => None end.
Fixpoint plain (t : ptree) : list ascii :=
  match t with PTok s => s | PGroup l => concat (map plain l) end.

(** The outcome that leaves least, the first of them if there are several. *)
Definition worse (r : list ascii) (o : outcome) : Prop :=
  match o with Some (_, r') => length r < length r' | None => True end.
Definition not_better (r : list ascii) (o : outcome) : Prop :=
  match o with Some (_, r') => length r <= length r' | None => True end.
Definition best (os : list outcome) (o : outcome) : Prop :=
  match o with
  | None => Forall (eq None) os
  | Some (_, r) => exists a b, os = a ++ o :: b /\ Forall (worse r) a /\ Forall (not_better r) b
  end.

Section Recursion.
Variable def : nat -> gx.            (** what the names mean *)
Variable trim : list ascii -> list ascii.  (** drops blanks around a text *)

Inductive does : gx -> bool -> list ascii -> outcome -> Prop :=
| do_tok : forall k ws s o, reads k s o -> does (GTok k) ws s o
| do_and : forall e l ws s o1 o, does e ws s o1 -> goes_on l ws o1 o -> does (GAnd e l) ws s o
| do_or : forall l ws s os o, tries l ws s os -> best os o -> does (GOr l) ws s o
| do_first : forall l ws s o, finds l ws s o -> does (GFirst l) ws s o
| do_opt : forall e d ws s r, does e ws s (Some r) -> does (GOpt e d) ws s (Some r)
| do_opt_not : forall e d ws s, does e ws s None -> does (GOpt e d) ws s (Some (d, s))
| do_some : forall e ws s t s' t' r, does e ws s (Some (t, s')) -> repeats e ws s' t' r ->
    does (GSome e) ws s (Some (t ++ t', r))
| do_some_not : forall e ws s, does e ws s None -> does (GSome e) ws s None
| do_any : forall e ws s t s' t' r, does e ws s (Some (t, s')) -> repeats e ws s' t' r ->
    does (GAny e) ws s (Some (t ++ t', r))
| do_any_not : forall e ws s, does e ws s None -> does (GAny e) ws s (Some ([], s))
| do_not : forall e ws s r, does e ws (start e ws s) (Some r) -> does (GNot e) ws s None
| do_not_not : forall e ws s, does e ws (start e ws s) None -> does (GNot e) ws s (Some ([], s))
| do_group : forall e ws s t r, does e ws s (Some (t, r)) -> does (GGroup e) ws s (Some ([PGroup t], r))
| do_group_not : forall e ws s, does e ws s None -> does (GGroup e) ws s None
| do_drop : forall e ws s t r, does e ws s (Some (t, r)) -> does (GDrop e) ws s (Some ([], r))
| do_drop_not : forall e ws s, does e ws s None -> does (GDrop e) ws s None
| do_join : forall e ws s t r, does e false s (Some (t, r)) -> does (GJoin e) ws s (Some ([PTok (concat (map plain t))], r))
| do_join_not : forall e ws s, does e false s None -> does (GJoin e) ws s None
| do_strip : forall e ws s u t r, does e ws s (Some (PTok u :: t, r)) -> does (GStrip e) ws s (Some ([PTok (trim u)], r))
| do_strip_not : forall e ws s o, does e ws s o -> (forall u t r, o <> Some (PTok u :: t, r)) -> does (GStrip e) ws s o
| do_ref : forall n ws s o, does (def n) ws s o -> does (GRef n) ws s o
(** the elements of a sequence after the first *)
with goes_on : list gx -> bool -> outcome -> outcome -> Prop :=
| go_not : forall l ws, goes_on l ws None None
| go_end : forall ws r, goes_on [] ws (Some r) (Some r)
| go_on : forall e l ws t s o1 o, does e ws (start e ws s) o1 -> goes_on l ws (more t o1) o ->
    goes_on (e :: l) ws (Some (t, s)) o
(** all alternatives *)
with tries : list gx -> bool -> list ascii -> list outcome -> Prop :=
| try_none : forall ws s, tries [] ws s []
| try_next : forall e l ws s o os, does e ws (start e ws s) o -> tries l ws s os -> tries (e :: l) ws s (o :: os)
(** alternatives up to the one that fits *)
with finds : list gx -> bool -> list ascii -> outcome -> Prop :=
| find_none : forall ws s, finds [] ws s None
| find_this : forall e l ws s r, does e ws (start e ws s) (Some r) -> finds (e :: l) ws s (Some r)
| find_next : forall e l ws s o, does e ws (start e ws s) None -> finds l ws s o -> finds (e :: l) ws s o
(** repetition until it does not fit any more *)
with repeats : gx -> bool -> list ascii -> list ptree -> list ascii -> Prop :=
| repeat_end : forall e ws s, does e ws (start e ws s) None -> repeats e ws s [] s
| repeat_on : forall e ws s t s' t' r, does e ws (start e ws s) (Some (t, s')) -> repeats e ws s' t' r ->
    repeats e ws s (t ++ t') r.

(** What is read of a text by [g], from its beginning. *)
Definition reads_text (g : gx) (s : list ascii) (o : option (list ptree)) : Prop :=
  exists o', does g true (start g true s) o' /\ o = match o' with Some (t, _) => Some t | None => None end.
End Recursion.
