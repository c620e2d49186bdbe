(** * SymRepr: model of repr() of symbols and symbol tables (hgpl/symbols.py) *)

From Coq Require Import NArith ZArith List Bool String.
From Verif Require Import PyBase PyNum Lexer Values Ast Symbols AttCert Errors Demo LexDiag Diag Show.
Import ListNotations.
Open Scope Z_scope.

Section WithPython.
Variable printable : N -> bool.
Variable P : pytext.
Variable null_text : str.   (* repr() of an ASTNullVal, which has an address in it *)

(** repr() of an enumeration's member: its class, name and number. *)
Definition enum_repr (cls name : str) (n : N) : str :=
  lit "<" ++ cls ++ lit "." ++ name ++ lit ": " ++ str_of_Z (Z.of_N n) ++ lit ">".
(** hgpl/symbols.py 7-16; None is no member. *)
Definition symtype_repr (t : symtype) : str :=
  match sym_name t with Ok n => enum_repr (lit "SymbolType") n (symtype_val t) | Err _ => lit "None" end.
(** hgpl/lexing.py 7-31 *)
Definition ttype_repr (t : ttype) : str := enum_repr (lit "TokenType") (type_name t) (ttype_val t).

(** hgpl/ast.py 93-94, ASTResult.__repr__ *)
Definition tri_repr (t : tri) : str :=
  lit "ASTResult." ++ match t with TRUE => lit "TRUE" | FALSE => lit "FALSE" | UNDEF => lit "UNDEF" end.

(** repr() of a value that is no collection. *)
Definition scalar_repr (v : pyval) : str :=
  match v with
  | VNone => lit "None"
  | VBool b => if b then lit "True" else lit "False"
  | VInt z => str_of_Z z
  | VFloat f => show_float P f
  | VStr s => str_repr printable s
  | VTri t => tri_repr t
  | VNull => null_text
  | VList _ | VSet _ => []
  end.
(** repr() of a value; Python chooses the order of a set, whose members are no collections. *)
Fixpoint value_repr (v : pyval) : str :=
  match v with
  | VList l => lit "[" ++ join (lit ", ") (map value_repr l) ++ lit "]"
  | VSet [] => lit "set()"
  | VSet l => lit "{" ++ join (lit ", ") (map scalar_repr (set_order P l)) ++ lit "}"
  | v => scalar_repr v
  end.

(** hgpl/symbols.py 100-102, Symbol.__repr__ *)
Definition symbol_repr (s : symbol) : str :=
  lit "Symbol(" ++ str_repr printable (sy_att_name s) ++ lit ", " ++ symtype_repr (sy_type s) ++ lit ", "
  ++ ttype_repr (sy_att_type s) ++ lit ", " ++ value_repr (sy_value s) ++ lit ")".

(** hgpl/symbols.py 213-214, SymbolTable.__repr__: the dictionary's entries in its order. *)
Definition entry_repr (h : heap) (e : str * loc) : str :=
  str_repr printable (fst e) ++ lit ": " ++ symbol_repr (hget h (snd e)).
Definition table_repr (h : heap) (tb : table) : str :=
  lit "SymbolTable: <{" ++ join (lit ", ") (map (entry_repr h) tb) ++ lit "}>".

End WithPython.
