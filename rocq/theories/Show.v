(** * Show: model of the methods of hgpl that print tokens, trees, symbols and tables

    The __str__ and __repr__ of hgpl/lexing.py, hgpl/ast.py and hgpl/symbols.py.  Python's own repr()
    of a str is written out; of a float only its text is kept ([show_float] of [pytext]). *)

From Coq Require Import NArith ZArith List Bool String.
From Verif Require Import PyBase PyNum Lexer Values Ast Symbols AttCert Errors Demo LexDiag Diag.
Import ListNotations.
Open Scope Z_scope.

Definition is_nil {A} (l : list A) : bool := match l with [] => true | _ => false end.

(** ** repr() of a str *)

(** The last [w] hexadecimal digits of [n], in lower case. *)
Definition hex_digit (n : N) : N := if (n <? 10)%N then (48 + n)%N else (87 + n)%N.
Fixpoint hex (w : nat) (n : N) : str :=
  match w with O => [] | S w => hex w (n / 16)%N ++ [hex_digit (n mod 16)%N] end.

Section WithPython.
Variable printable : N -> bool.   (* str.isprintable of one character, asked for non-ASCII only *)
Variable P : pytext.

(** How repr() writes a character between quotes [q]. *)
Definition escape (q c : N) : str :=
  if (c =? q)%N || (c =? 92)%N then [92%N; c]
  else if (c =? 9)%N then [92%N; 116%N]
  else if (c =? 10)%N then [92%N; 110%N]
  else if (c =? 13)%N then [92%N; 114%N]
  else if (c <? 32)%N || (c =? 127)%N then [92%N; 120%N] ++ hex 2 c
  else if (c <? 127)%N then [c]
  else if printable c then [c]
  else if (c <? 256)%N then [92%N; 120%N] ++ hex 2 c
  else if (c <? 65536)%N then [92%N; 117%N] ++ hex 4 c
  else [92%N; 85%N] ++ hex 8 c.

(** Double quotes only for a text with single quotes and without double ones. *)
Definition quote (s : str) : N :=
  if existsb (N.eqb 39) s && negb (existsb (N.eqb 34) s) then 34%N else 39%N.
Definition str_repr (s : str) : str := [quote s] ++ flat_map (escape (quote s)) s ++ [quote s].

(** ** Tokens *)

(** repr() and str() of a token's value. *)
Definition val_repr (v : tokval) : str :=
  match v with TNone => lit "None" | TStr s => str_repr s | TInt z => str_of_Z z | TFloat f => show_float P f end.
Definition val_str (v : tokval) : str := match v with TStr s => s | v => val_repr v end.
Definition val_truthy (v : tokval) : bool :=
  match v with
  | TNone => false | TStr s => negb (is_nil s) | TInt z => num_truth (NInt z) | TFloat f => num_truth (NFloat f)
  end.

(** hgpl/lexing.py 39-46, Token.__str__ *)
Definition token_str (t : token) : str :=
  if val_truthy (t_val t) && negb (is_nil (val_str (t_val t))) then
    lit "Token(" ++ type_name (t_type t) ++ lit ", "
    ++ (if ttype_eqb (t_type t) STRING then val_repr (t_val t) else val_str (t_val t)) ++ lit ")"
  else lit "Token(" ++ type_name (t_type t) ++ lit ")".

(** str() of a member of TokenType. *)
Definition type_str (ty : ttype) : str := lit "TokenType." ++ type_name ty.

(** hgpl/lexing.py 48-58, Token.__repr__ *)
Definition token_repr (t : token) : str :=
  if val_truthy (t_val t) && negb (is_nil (val_repr (t_val t))) then
    if 0 <=? t_pos t then
      lit "Token(" ++ type_str (t_type t) ++ lit ", " ++ str_of_Z (t_pos t) ++ lit ", " ++ val_repr (t_val t) ++ lit ")"
    else lit "Token(" ++ type_str (t_type t) ++ lit ", value=" ++ val_repr (t_val t) ++ lit ")"
  else
    if 0 <=? t_pos t then lit "Token(" ++ type_str (t_type t) ++ lit ", " ++ str_of_Z (t_pos t) ++ lit ")"
    else lit "Token(" ++ type_str (t_type t) ++ lit ")".

(** hgpl/lexing.py 171-175, token_string() of a lexer with these tokens. *)
Definition lexer_str (ts : list token) : str := token_string (map (fun t => type_name (t_type t)) ts).

(** ** Symbols *)

(** hgpl/symbols.py 7-16, SymbolType.name; None has no name. *)
Definition sym_name (t : symtype) : res str :=
  match t with
  | ST_INT => Ok (lit "INT") | ST_FLOAT => Ok (lit "FLOAT") | ST_STRING => Ok (lit "STRING")
  | ST_BOOL => Ok (lit "BOOL") | ST_UNKNOWN => Ok (lit "UNKNOWN") | ST_SET => Ok (lit "SET")
  | ST_CUSTOM => Ok (lit "CUSTOM") | ST_NONE => Err EAttribute
  end.

(** hgpl/symbols.py 97-98, Symbol.__str__ *)
Definition symbol_str (s : symbol) : res str :=
  n <- sym_name (sy_type s) ;;
  Ok (lit "<" ++ sy_name s ++ lit ", " ++ n ++ lit ", " ++ py_str P (sy_value s) ++ lit ">").

(** hgpl/symbols.py 205-211, SymbolTable.__str__: the loop runs over the keys of the dictionary, which
    are texts, and asks the first for its name. *)
Definition table_str (tb : table) : res str :=
  match tb with
  | [] => Ok (lit "Name" ++ [9%N; 9%N] ++ lit "Symbol Type" ++ [9%N; 9%N] ++ lit "Value" ++ [9%N; 9%N] ++ lit "Att Type" ++ [nl])
  | _ :: _ => Err EAttribute
  end.

(** ** Trees *)

Variable h : heap.

(** ["{}".format(node.result)] *)
Definition result_str (r : option rval) : res str :=
  match r with
  | None => Ok (lit "None")
  | Some (RV v) => Ok (py_str P v)
  | Some (RSym l) => symbol_str (hget h l)
  end.

Definition blanks (n : nat) : str := repeat 32%N n.

(** hgpl/ast.py 187-193, _print_tree: first the line of the node, then its children. *)
Definition node_line (indent : nat) (t : token) (r : option rval) : res str :=
  x <- result_str r ;;
  Ok (blanks indent ++ type_name (t_type t) ++ lit ": " ++ val_repr (t_val t) ++ lit " -> " ++ x ++ [nl]).
Fixpoint print_tree (indent : nat) (a : ast) {struct a} : res str :=
  let 'Node _ t _ r ks := a in
  x <- node_line indent t r ;;
  y <- (fix go (l : list ast) : res str :=
          match l with
          | [] => Ok []
          | k :: l' => u <- print_tree (indent + 3) k ;; v <- go l' ;; Ok (u ++ v)
          end) ks ;;
  Ok (x ++ y).

(** hgpl/ast.py 195-196, ASTNode.__str__ *)
Definition node_str (a : ast) : res str := print_tree 0 a.

End WithPython.

(** [self.__class__.__name__] *)
Definition class_name (c : nclass) : str :=
  lit match c with
      | CAst => "ASTNode" | COp => "OpNode" | CBoolOp => "BoolOpNode" | CBoolVal => "BoolValNode" | CVal => "ValNode"
      | CInt => "IntValNode" | CFloat => "FloatValNode" | CString => "StringValNode" | CNull => "NullValNode"
      | CSet _ => "SetNode" | CNot => "NotNode" | CAtt => "AttNode" | CUsr => "UsrAttNode" | CObj => "ObjAttNode"
      | CAdm => "AdmAttNode" | CCon => "ConAttNode" | CEnv => "EnvAttNode"
      end.

(** repr() of a list with the texts of its members. *)
Definition list_repr (l : list str) : str := lit "[" ++ join (lit ", ") l ++ lit "]".

(** hgpl/ast.py 198-209, ASTNode.__repr__, and 292-294, SetNode.__repr__.  A node is always true, so
    the cases are those of the number of children; right() without left() does not occur. *)
Fixpoint node_repr (printable : N -> bool) (P : pytext) (a : ast) {struct a} : str :=
  let 'Node c t _ _ ks := a in
  class_name c ++ lit "(" ++ token_repr printable P t ++
  match c with
  | CSet e =>
      lit ", " ++ match e with Some u => token_repr printable P u | None => lit "None" end
      ++ lit ", " ++ list_repr (map (node_repr printable P) ks)
  | _ =>
      match ks with
      | [] => []
      | [l] => lit ", " ++ node_repr printable P l
      | [l; r] => lit ", " ++ node_repr printable P l ++ lit ", " ++ node_repr printable P r
      | _ => lit "," ++ list_repr (map (node_repr printable P) ks)
      end
  end ++ lit ")".
