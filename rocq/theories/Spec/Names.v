(** How lists of authors, references and institutes are written. *)
From Coq Require Import String List Ascii NArith ZArith Bool Arith.
From Verif.Spec Require Import Text Codes.
Import ListNotations.
Local Open Scope list_scope.

(** A visible ASCII character other than the comma. *)
Definition mark (c : ascii) : Prop := (33 <= N_of_ascii c <= 126)%N /\ c <> ","%char.
(** ... and other than a parenthesis. *)
Definition plain_mark (c : ascii) : Prop := mark c /\ c <> "("%char /\ c <> ")"%char.

(** Texts one after the other with something in between. *)
Fixpoint between (sep : list ascii) (l : list (list ascii)) : list ascii :=
  match l with
  | [] => []
  | [x] => x
  | x :: l' => x ++ sep ++ between sep l'
  end.

(** A name: words with one blank in between. *)
Definition name_of (P : ascii -> Prop) (n : list ascii) : Prop :=
  exists words, words <> [] /\ Forall (nonempty P) words /\ n = between [" "%char] words.

(** The names, each with any number of blanks before it. *)
Definition indented (names items : list (list ascii)) : Prop :=
  Forall2 (fun n i => exists b, Forall (eq " "%char) b /\ i = b ++ n) names items.

(** At most one single and one double quotation mark. *)
Definition few_quotes (s : list ascii) : Prop :=
  count_occ ascii_dec s (ascii_of_N 34) <= 1 /\ count_occ ascii_dec s (ascii_of_N 39) <= 1.
Definition no_tabs (s : list ascii) : Prop := ~ In (ascii_of_N 9) s.

(** A list of names: in parentheses, separated by commas, each with any number of blanks before
    it, then a comment. *)
Definition name_list (names : list (list ascii)) (text : list ascii) : Prop :=
  names <> [] /\ Forall (name_of plain_mark) names /\
  exists items comment, indented names items /\
    text = "("%char :: between [","%char] items ++ ")"%char :: comment /\
    few_quotes text /\ no_tabs text.

(** A list of names whose closing parenthesis is missing. *)
Definition unclosed_list (names : list (list ascii)) (text : list ascii) : Prop :=
  ~ In ")"%char text /\ name_list names (text ++ [")"%char]).

(** The authors: such a list, closed or not. *)
Definition author_list (names : list (list ascii)) (text : list ascii) : Prop :=
  name_list names text \/ unclosed_list names text.

(** What follows the last dot (everything if there is none). *)
Definition after_last_dot (n f : list ascii) : Prop :=
  ~ In "."%char f /\ (n = f \/ exists before, n = before ++ "."%char :: f).

(** ** Institutes *)

(** The characters of institute codes and of comments. *)
Definition letter_or_digit (c : ascii) : Prop := letter c \/ digit c.
Definition institute_char (c : ascii) : Prop :=
  letter_or_digit c \/ In c [","; "."; ";"; "+"; "-"; "*"; "/"; "'"]%char.

(** Words, each with blanks before it. *)
Inductive words_text : list (list ascii) -> list ascii -> Prop :=
| words_nil : words_text [] []
| words_cons : forall b w ws s, b <> [] -> Forall gap b -> nonempty institute_char w -> words_text ws s ->
    words_text (w :: ws) (b ++ w ++ s).
(** A comment: words; the first one need not have blanks before it. *)
Inductive comment_text : list (list ascii) -> list ascii -> Prop :=
| comment_none : comment_text [] []
| comment_some : forall b w ws s, Forall gap b -> nonempty institute_char w -> words_text ws s ->
    comment_text (w :: ws) (b ++ w ++ s).

(** Nothing, or something that neither goes on with a comment nor opens a parenthesis. *)
Definition unread (s : list ascii) : Prop :=
  match s with [] => True | c :: _ => ~ gap c /\ ~ institute_char c /\ c <> "("%char /\ c <> ascii_of_N 9 end.

(** Institutes: each a code in parentheses and a comment without parentheses.  The code is the first
    of the words in the parentheses: of (2UK OXF) it is 2UK.  From the first character that cannot
    be in a comment on, nothing is read. *)
Inductive institutes_text : list (list ascii * list (list ascii)) -> list ascii -> Prop :=
| institutes_nil : forall b rest, Forall gap b -> unread rest -> institutes_text [] (b ++ rest)
| institutes_cons : forall b code others more words cm rest s, Forall gap b -> nonempty institute_char code ->
    words_text others more -> comment_text words cm -> institutes_text rest s ->
    institutes_text ((code, words) :: rest) (b ++ "("%char :: code ++ more ++ ")"%char :: cm ++ s).

(** The last three characters (all of them if there are fewer). *)
Definition last_three (s t : list ascii) : Prop :=
  (exists a, s = a ++ t /\ length t = 3) \/ (length s < 3 /\ t = s).

(** What is known of an institute: its code, its name (the first column of the dictionary's row for
    the last three characters of the code, or the code if there is no row) and the comment, in
    title case. *)
Definition institute_named (title_case : list ascii -> list ascii) (row : list ascii -> option (list (list ascii)))
  (i : list ascii * list (list ascii)) (r : list ascii * list ascii * list ascii) : Prop :=
  let '(code, words) := i in let '(code', name, comment) := r in
  code' = code /\ comment = title_case (between [" "%char] words) /\
  exists t, last_three code t /\
    match row t with Some (column :: _) => name = column | _ => name = code end.

(** ** References *)

(** A code is its type (one character), name, details and date (digits); a reference is a code and
    a comment. *)
Record ref := mkRefText { rt_type : ascii; rt_name : list ascii; rt_details : list (list ascii); rt_date : list N; rt_comment : list ascii }.

(** The code as written, without the parentheses around it. *)
Definition ref_code (r : ref) : list ascii :=
  between [","%char] ([rt_type r] :: rt_name r :: rt_details r ++ [digits_text (rt_date r)]).

(** A text with blanks strewn in.  Parentheses are closed and not nested, and there are no blanks
    within them. *)
Inductive blanks_in : list ascii -> list ascii -> Prop :=
| blanks_nil : blanks_in [] []
| blanks_blank : forall c s t, gap c -> blanks_in s t -> blanks_in s (c :: t)
| blanks_char : forall c s t, plain_mark c \/ c = ","%char -> blanks_in s t -> blanks_in (c :: s) (c :: t)
| blanks_group : forall w s t, nonempty (fun c => plain_mark c \/ c = ","%char) w -> blanks_in s t ->
    blanks_in ("("%char :: w ++ ")"%char :: s) ("("%char :: w ++ ")"%char :: t).

(** A reference in a field: its code in parentheses, with blanks anywhere, and the comment. *)
Definition ref_text (r : ref) (text : list ascii) : Prop :=
  exists body, blanks_in (ref_code r) body /\ text = "("%char :: body ++ ")"%char :: rt_comment r /\
    few_quotes text /\ no_tabs text /\ Forall (Forall mark) (rt_name r :: rt_details r) /\ rt_date r <> [] /\ is_digits (rt_date r).

(** Several codes of what is the same reference, one after the other: ((code)=(code)) and the
    comment; [further_codes] is what follows the first of the codes. *)
Inductive further_codes : list ref -> list ascii -> Prop :=
| further_none : forall w, Forall gap w -> further_codes [] w
| further_one : forall r rs w v body t, Forall gap w -> Forall gap v -> blanks_in (ref_code r) body -> further_codes rs t ->
    further_codes (r :: rs) (w ++ "="%char :: v ++ "("%char :: body ++ ")"%char :: t).
Definition codes_text (rs : list ref) (text : list ascii) : Prop :=
  exists r others body t comment, rs = r :: others /\ others <> [] /\ blanks_in (ref_code r) body /\ further_codes others t /\
    text = "("%char :: "("%char :: body ++ ")"%char :: t ++ ")"%char :: comment /\ few_quotes text /\ no_tabs text /\
    Forall (fun r => rt_comment r = comment /\ Forall (Forall mark) (rt_name r :: rt_details r) /\ rt_date r <> [] /\ is_digits (rt_date r)) rs.

(** The types of references, and those of publications among them. *)
Definition publication_types : list ascii := list_ascii_of_string "ABCJKPRSTWX".
Definition numbered_types : list ascii := list_ascii_of_string "034".

(** References on the lines of a field: each begins on a line that begins with one parenthesis,
    and goes on to the next such line; or, if it has several codes, on a line that begins with two
    parentheses, and goes on at least to a line with two closing ones. *)
Definition opening (l : list ascii) : Prop := exists s, l = "("%char :: s.
Definition twice (l : list ascii) : Prop := exists s, l = "("%char :: "("%char :: s.
Definition closing (l : list ascii) : Prop := exists a b, l = a ++ ")"%char :: ")"%char :: b.
Inductive goes_on : bool -> list (list ascii) -> Prop :=
| goes_end : goes_on false []
| goes_comment : forall l ls, ~ opening l -> goes_on false ls -> goes_on false (l :: ls)
| goes_closing : forall l ls, ~ twice l -> closing l -> goes_on false ls -> goes_on true (l :: ls)
| goes_open : forall l ls, ~ twice l -> ~ closing l -> goes_on true ls -> goes_on true (l :: ls).
Inductive one_by_one : list (list ascii) -> list (list ascii) -> Prop :=
| one_by_one_nil : one_by_one [] []
| one_by_one_cons : forall first more lines texts, ~ opening first -> Forall (fun l => ~ opening l) more ->
    one_by_one lines texts ->
    one_by_one (("("%char :: first) :: more ++ lines) (("("%char :: first ++ concat more) :: texts)
| one_by_one_same : forall first more lines texts, twice first ->
    closing first /\ goes_on false more \/ ~ closing first /\ goes_on true more -> one_by_one lines texts ->
    one_by_one (first :: more ++ lines) ((first ++ concat more) :: texts).

(** How the dictionaries name a reference.  [table] gives a column of a row of a dictionary. *)
Definition pretty_name (capitalize : list ascii -> list ascii) (table : string -> list ascii -> nat -> option (list ascii))
  (ty : ascii) (name pretty : list ascii) : Prop :=
  let found (dictionary : string) (key : list ascii) (column : nat) (rest : list ascii) :=
    match table dictionary key column with
    | Some t => pretty = t ++ rest ++ [" "%char]
    | None => pretty = ty :: ","%char :: name
    end in
  (In ty (list_ascii_of_string "ABC") -> found "ConferencesAndBooks"%string name 0 []) /\
  (In ty (list_ascii_of_string "JK") -> found "Journals"%string name 0 []) /\
  (In ty (list_ascii_of_string "PRS") -> found "ReferenceTypes"%string [ty] 1 (list_ascii_of_string ": " ++ name)) /\
  (In ty (list_ascii_of_string "TWX034") -> found "ReferenceTypes"%string [ty] 1 (list_ascii_of_string ": " ++ capitalize name)).
