(** * DiagSpec: what a syntax error should say (specification) *)

From Coq Require Import NArith ZArith List Bool String.
From Verif Require Import PyBase PyNum Lexer Values Ast Grammar ParsePos AttCert.
Import ListNotations.
Open Scope Z_scope.

(** What is read next. *)
Inductive wait : Type :=
| WStart                    (* the start of an expression *)
| WNegated                  (* what NOT applies to *)
| WElement (first : bool)   (* an element of a set *)
| WComma                    (* "," or "}" after an element *)
| WOperand                  (* the right side of a comparison *)
| WOperator                 (* the operator after a set *)
| WClose (lp : token)       (* ")" for this "(" *)
| WFinish.                  (* the end of the policy *)

(** The beginning of a set. *)
Inductive in_set : list token -> wait -> Prop :=
| is_first lb : t_type lb = LSET -> in_set [lb] (WElement true)
| is_next lb w l c : t_type lb = LSET -> g_setval w l -> t_type c = COMMA -> in_set (lb :: w ++ [c]) (WElement false)
| is_comma lb w l : t_type lb = LSET -> g_setval w l -> in_set (lb :: w) WComma.

(** "(" or "NOT (" *)
Inductive opens : list token -> token -> Prop :=
| op_paren lp : t_type lp = LPARN -> opens [lp] lp
| op_not nt lp : t_type nt = NOT_OP -> t_type lp = LPARN -> opens [nt; lp] lp.

(** The beginning of an expression whose next token is awaited. *)
Inductive inner : list token -> wait -> Prop :=
| in_start : inner [] WStart
| in_neg nt : t_type nt = NOT_OP -> inner [nt] WNegated
| in_left s k : in_set s k -> inner s k
| in_operator s q : g_set s q -> inner s WOperator
| in_operand l q o : g_var l q -> t_type o = OP -> inner (l ++ [o]) WOperand
| in_right l q o s k : g_var l q -> t_type o = OP -> in_set s k -> inner (l ++ o :: s) k
| in_close p lp w q : opens p lp -> g_policy w q -> inner (p ++ w) (WClose lp).

(** What is awaited after the tokens [u] of a policy: inside the last open expression of [u],
    or after a whole policy. *)
Inductive waits : list token -> wait -> Prop :=
| w_in s v x k : t_type s = START -> pre_policy v -> inner x k -> waits (s :: v ++ x) k
| w_finish s w q : t_type s = START -> g_policy w q -> waits (s :: w) WFinish.

(** The grammar rule an error is attributed to. *)
Definition rule_of (k : wait) : str :=
  lit match k with
      | WStart | WOperator | WClose _ => "exp"
      | WNegated => "att_name"
      | WElement _ => "atomic"
      | WComma => "set"
      | WOperand => "var"
      | WFinish => "parse"
      end.

(** The message for the token found, whose type is called [name]. *)
Definition wording (k : wait) (name : str) (pos : Z) : str :=
  match k with
  | WStart => lit "Syntax error, unexpected " ++ name ++ lit " at char " ++ str_of_Z pos ++ lit ". Expected start of EXP rule."
  | WNegated => lit "Syntax error, expected attribute name and not " ++ name ++ lit "."
  | WElement _ => lit "Syntax error, expected atomic constant and not " ++ name ++ lit "."
  | WComma => lit "Syntax error, expected ',' not " ++ name ++ lit " in set notation."
  | WOperand => lit "Syntax error, unexpected " ++ name ++ lit " at char " ++ str_of_Z pos ++ lit ". Expected attribute or constant."
  | WOperator => lit "Syntax error, expected operation not " ++ name ++ lit "."
  | WClose lp => lit "Syntax error, '(' at char " ++ str_of_Z (t_pos lp) ++ lit " is missing matching ')'."
  | WFinish => lit "Syntax error, expected END token marking end of policy."
  end.

Definition attribute (t : token) : Prop := In (t_type t) [USR_ATT; OBJ_ATT; ENV_ATT; ADM_ATT; CON_ATT].
Definition joins (t : token) : Prop := is_word BOOL_OP "AND" t \/ is_word BOOL_OP "OR" t.
(** [u] ends in an attribute where an expression had to start, so that a comparison may follow. *)
Definition dangling (u : list token) : Prop := exists u0 a, u = u0 ++ [a] /\ expects u0 /\ attribute a.

(** The tokens that may come next. *)
Definition allowed (u : list token) (k : wait) (t : token) : Prop :=
  match k with
  | WStart => In (t_type t) [NOT_OP; LPARN; LSET; BOOL] \/ attribute t \/ constant t
  | WNegated => In (t_type t) [LPARN; BOOL] \/ attribute t
  | WElement first => constant t \/ (first = true /\ t_type t = RSET)
  | WComma => In (t_type t) [COMMA; RSET]
  | WOperand => t_type t = LSET \/ attribute t \/ constant t
  | WOperator => t_type t = OP
  | WClose _ => t_type t = RPARN \/ joins t \/ (t_type t = OP /\ dangling u)
  | WFinish => t_type t = END \/ joins t \/ (t_type t = OP /\ dangling u)
  end.

(** The tokens the message asks for. *)
Definition asked (k : wait) (t : token) : Prop :=
  match k with
  | WStart => In (t_type t) [NOT_OP; LPARN; LSET; BOOL] \/ attribute t \/ constant t
  | WNegated => attribute t
  | WElement _ => constant t
  | WComma => t_type t = COMMA
  | WOperand => t_type t = LSET \/ attribute t \/ constant t
  | WOperator => t_type t = OP
  | WClose _ => t_type t = RPARN
  | WFinish => t_type t = END
  end.
