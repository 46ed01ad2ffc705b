(** The fragment of SQLite that X4DBManagerPlainFS.query can produce: the WHERE clause of
        select subent from theworks where <condition>
    (exfor_manager.py:174-181, 273).  SQLite itself is not in /repo; this file models the
    documented lexical rules (https://sqlite.org/lang_expr.html) for string literals,
    names, =, LIKE, AND, OR.  Anything else is reported as [OutsideModel].  No proofs here. *)
From Coq Require Import String List Ascii NArith Bool Arith.
From Verif.Model Require Import Py.
Import ListNotations.
Local Open Scope list_scope.

(** A row of the table theworks.  Text columns may be NULL, except subent, which
    query() sorts and slices.  The boolean columns rxncombo and monitored, which no
    generated query mentions, are left out. *)
Record row := mkRow {
  r_entry : option str; r_subent : str; r_pointer : option str; r_author : option str;
  r_reaction : option str; r_projectile : option str; r_target : option str;
  r_quantity : option str }.

(** ** Lexer *)

Inductive sqltok := TId (s : str) | TStr (s : str) | TEq.

Inductive lexres := LexOk (l : list sqltok) | LexError | LexOutside.

Definition sql_quote : ascii := ch 39.
Definition sql_space (c : ascii) : bool :=
  let n := code c in ((n =? 32) || (n =? 9) || (n =? 10) || (n =? 12) || (n =? 13))%N.
Definition is_alpha (c : ascii) : bool :=
  let n := code c in (((65 <=? n) && (n <=? 90)) || ((97 <=? n) && (n <=? 122)))%N.
Definition sql_idstart (c : ascii) : bool := is_alpha c || (code c =? 95)%N || (128 <=? code c)%N.
Definition sql_idchar (c : ascii) : bool := sql_idstart c || is_dig c || (code c =? 36)%N.

(** Lexer state: between tokens, inside a name, inside a literal, just after a quote that
    either ends the literal or is the first of a doubled quote. *)
Inductive lexst := LStart | LId (acc : str) | LStr (acc : str) | LStrQ (acc : str).

Definition lex_cons (t : sqltok) (r : lexres) : lexres :=
  match r with LexOk l => LexOk (t :: l) | _ => r end.

Fixpoint sql_lex (st : lexst) (s : str) : lexres :=
  match s with
  | [] => match st with
          | LStart => LexOk []
          | LId acc => LexOk [TId (rev acc)]
          | LStr _ => LexError
          | LStrQ acc => LexOk [TStr (rev acc)]
          end
  | c :: s' =>
      let start :=
        if sql_space c then sql_lex LStart s'
        else if sql_idstart c then sql_lex (LId [c]) s'
        else if Ascii.eqb c sql_quote then sql_lex (LStr []) s'
        else if Ascii.eqb c "="%char then lex_cons TEq (sql_lex LStart s')
        else LexOutside in
      match st with
      | LStart => start
      | LId acc => if sql_idchar c then sql_lex (LId (c :: acc)) s'
                   else lex_cons (TId (rev acc)) start
      | LStr acc => if Ascii.eqb c sql_quote then sql_lex (LStrQ acc) s'
                    else sql_lex (LStr (c :: acc)) s'
      | LStrQ acc => if Ascii.eqb c sql_quote then sql_lex (LStr (c :: acc)) s'
                     else lex_cons (TStr (rev acc)) start
      end
  end.

(** ** Parser: disjunctions of conjunctions of comparisons *)

Inductive atom := ACol (get : row -> option str) | ALit (s : str).
Inductive cmp := CEq (a b : atom) | CLike (a b : atom).

Definition sql_column (name : str) : option (row -> option str) :=
  let n := lower name in
  if str_eqb n (lit "entry") then Some r_entry
  else if str_eqb n (lit "subent") then Some (fun r => Some (r_subent r))
  else if str_eqb n (lit "pointer") then Some r_pointer
  else if str_eqb n (lit "author") then Some r_author
  else if str_eqb n (lit "reaction") then Some r_reaction
  else if str_eqb n (lit "projectile") then Some r_projectile
  else if str_eqb n (lit "target") then Some r_target
  else if str_eqb n (lit "quantity") then Some r_quantity
  else None.

Definition sql_atom (t : sqltok) : option atom :=
  match t with
  | TStr s => Some (ALit s)
  | TId n => option_map ACol (sql_column n)
  | TEq => None
  end.

Definition sql_cmp (a op b : sqltok) : option cmp :=
  match sql_atom a, sql_atom b, op with
  | Some x, Some y, TEq => Some (CEq x y)
  | Some x, Some y, TId n => if str_eqb (lower n) (lit "like") then Some (CLike x y) else None
  | _, _, _ => None
  end.

(** AND binds more tightly than OR.  The result is a list of conjunctions. *)
Fixpoint sql_parse (l : list sqltok) : option (list (list cmp)) :=
  match l with
  | a :: op :: b :: rest =>
      match sql_cmp a op b with
      | None => None
      | Some c =>
          match rest with
          | [] => Some [[c]]
          | TId k :: rest' =>
              match sql_parse rest' with
              | None => None
              | Some ds =>
                  if str_eqb (lower k) (lit "and") then
                    match ds with d :: ds' => Some ((c :: d) :: ds') | [] => None end
                  else if str_eqb (lower k) (lit "or") then Some ([c] :: ds)
                  else None
              end
          | _ => None
          end
      end
  | _ => None
  end.

(** ** Evaluation.  A comparison with NULL is not true. *)

(** ASCII case folding of LIKE. *)
Definition ascii_lower (c : ascii) : ascii :=
  if ((65 <=? code c) && (code c <=? 90))%N then ch (code c + 32) else c.

(** [s LIKE p]: % matches any text, _ any one character. *)
Fixpoint sql_like (p : str) : str -> bool :=
  match p with
  | [] => fun s => match s with [] => true | _ => false end
  | c :: p' =>
      if Ascii.eqb c "%"%char then
        fix any (s : str) : bool :=
          sql_like p' s || match s with [] => false | _ :: s' => any s' end
      else fun s =>
        match s with
        | [] => false
        | d :: s' => (Ascii.eqb c "_"%char || Ascii.eqb (ascii_lower c) (ascii_lower d)) && sql_like p' s'
        end
  end.

Definition atom_val (r : row) (a : atom) : option str :=
  match a with ACol get => get r | ALit s => Some s end.

Definition cmp_true (r : row) (c : cmp) : bool :=
  match c with
  | CEq a b => match atom_val r a, atom_val r b with
               | Some x, Some y => str_eqb x y | _, _ => false end
  | CLike a b => match atom_val r a, atom_val r b with
                 | Some x, Some y => sql_like y x | _, _ => false end
  end.

Definition dnf_true (r : row) (ds : list (list cmp)) : bool :=
  existsb (forallb (cmp_true r)) ds.

(** CURSOR.execute("select subent from theworks where " + cond) followed by fetchall().
    A NUL character makes sqlite3 refuse the text (reported here as SqlError too). *)
Definition sql_select (table : list row) (cond : str) : res (list str) :=
  if cmem (ch 0) cond then Raise SqlError
  else match sql_lex LStart cond with
       | LexError => Raise SqlError
       | LexOutside => Raise OutsideModel
       | LexOk toks =>
           match sql_parse toks with
           | None => Raise OutsideModel
           | Some ds => Ok (map r_subent (filter (fun r => dnf_true r ds) table))
           end
       end.
