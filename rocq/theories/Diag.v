(** * Diag: model of hgpl/parsing.py with the messages and rule names of its errors *)

From Coq Require Import NArith ZArith List Bool String.
From Verif Require Import PyBase PyNum Lexer Values Ast Parser AttCert Errors.
Import ListNotations.
Open Scope Z_scope.

(** The attributes of a ParserError beside the policy text, which every error gets from
    the parser (hgpl/errors.py 46-50). *)
Record perror : Type := PErr { pe_msg : str; pe_pos : Z; pe_tok : token; pe_rule : str }.

(** What a parser rule ends with: a value, a ParserError or another exception. *)
Inductive dres (A : Type) : Type :=
| DOk (a : A)
| DSyn (e : perror)
| DExc (x : exc).
Arguments DOk {A} a.
Arguments DSyn {A} e.
Arguments DExc {A} x.

Definition dbind {A B} (m : dres A) (f : A -> dres B) : dres B :=
  match m with DOk a => f a | DSyn e => DSyn e | DExc x => DExc x end.
Notation "x <% m ;; k" := (dbind m (fun x => k))
  (at level 61, m at next level, right associativity).
Notation "' p <% m ;; k" := (dbind m (fun p => k))
  (at level 61, p pattern, m at next level, right associativity).

(** A step without ParserError. *)
Definition of_res {A} (m : res A) : dres A :=
  match m with Ok a => DOk a | Err x => DExc x end.

(** [TokenType.name] (hgpl/lexing.py 7-30). *)
Definition type_name (ty : ttype) : str :=
  lit match ty with
      | OP => "OP" | BOOL_OP => "BOOL_OP" | NOT_OP => "NOT_OP" | USR_ATT => "USR_ATT"
      | OBJ_ATT => "OBJ_ATT" | ENV_ATT => "ENV_ATT" | ADM_ATT => "ADM_ATT" | CON_ATT => "CON_ATT"
      | UNK_ATT => "UNK_ATT" | UNK_ID => "UNK_ID" | NULL => "NULL" | BOOL => "BOOL" | INT => "INT"
      | FLOAT => "FLOAT" | STRING => "STRING" | LSET => "LSET" | RSET => "RSET" | LPARN => "LPARN"
      | RPARN => "RPARN" | COMMA => "COMMA" | START => "START" | END => "END"
      end.

Section WithUnicode.
Variable U : unicode.

(** [self._current_token] (hgpl/parsing.py 31-36). *)
Definition dcur (ts : list token) : dres token := of_res (cur ts).

(** hgpl/parsing.py 38-47, _eat(token_type, rule, msg); [msg] is None or the text made
    from the current token by the caller. *)
Definition d_eat (ty : ttype) (rule : string) (msg : option (token -> str)) (ts : list token)
  : dres (token * list token) :=
  t <% dcur ts ;;
  if ttype_eqb (t_type t) ty then DOk (t, tl ts)
  else DSyn (PErr (match msg with
                   | Some m => m t
                   | None => lit "Parse Error, expected " ++ type_name ty ++ lit " token but encountered "
                             ++ type_name (t_type t) ++ lit "."
                   end) (t_pos t) t (lit rule)).

(** [_eat] of a token and the node made of it. *)
Definition d_leaf (ty : ttype) (c : nclass) (rule : string) (msg : option (token -> str))
    (ts : list token) (n : Z) : dres (ast * list token * Z) :=
  '(t, r) <% d_eat ty rule msg ts ;;
  '(nd, n') <% of_res (mk_node U c t [] n) ;; DOk (nd, r, n').

(** hgpl/parsing.py 62-74, _att_name_rule. *)
Definition d_att_name (ts : list token) (n : Z) : dres (ast * list token * Z) :=
  t <% dcur ts ;;
  match t_type t with
  | USR_ATT => d_leaf USR_ATT CUsr "att_name" None ts n
  | OBJ_ATT => d_leaf OBJ_ATT CObj "att_name" None ts n
  | ADM_ATT => d_leaf ADM_ATT CAdm "att_name" None ts n
  | ENV_ATT => d_leaf ENV_ATT CEnv "att_name" None ts n
  | _ => d_leaf CON_ATT CCon "att_name"
           (Some (fun t => lit "Syntax error, expected attribute name and not " ++ type_name (t_type t) ++ lit ".")) ts n
  end.

(** hgpl/parsing.py 76-81, _bool_var_rule. *)
Definition d_bool_var (ts : list token) (n : Z) : dres (ast * list token * Z) :=
  t <% dcur ts ;;
  if ttype_eqb (t_type t) BOOL then d_leaf BOOL CBoolVal "bool_var" None ts n
  else d_att_name ts n.

(** hgpl/parsing.py 83-94, _atomic_rule. *)
Definition d_atomic (ts : list token) (n : Z) : dres (ast * list token * Z) :=
  t <% dcur ts ;;
  match t_type t with
  | INT => d_leaf INT CInt "atomic" None ts n
  | FLOAT => d_leaf FLOAT CFloat "atomic" None ts n
  | STRING => d_leaf STRING CString "atomic" None ts n
  | _ => d_leaf NULL CNull "atomic"
           (Some (fun t => lit "Syntax error, expected atomic constant and not " ++ type_name (t_type t) ++ lit ".")) ts n
  end.

Definition set_msg (what : string) (t : token) : str :=
  lit "Syntax error, expected '" ++ lit what ++ lit "' not " ++ type_name (t_type t) ++ lit " in set notation.".

(** hgpl/parsing.py 103-106, the loop of _set_rule. *)
Fixpoint d_set_loop (fuel : nat) (ts : list token) (n : Z) : dres (list ast * list token * Z) :=
  match fuel with
  | O => DExc EFuel
  | S f =>
      t <% dcur ts ;;
      if ttype_eqb (t_type t) RSET then DOk ([], ts, n)
      else '(_, ts1) <% d_eat COMMA "set" (Some (set_msg ",")) ts ;;
           '(nd, ts2, n1) <% d_atomic ts1 n ;;
           '(nds, ts3, n2) <% d_set_loop f ts2 n1 ;;
           DOk (nd :: nds, ts3, n2)
  end.

(** hgpl/parsing.py 96-110, _set_rule. *)
Definition d_set (ts : list token) (n : Z) : dres (ast * list token * Z) :=
  '(ts0, ts1) <% d_eat LSET "set" (Some (set_msg "{")) ts ;;
  t <% dcur ts1 ;;
  '(nds, ts2, n1) <%
     (if ttype_eqb (t_type t) RSET then DOk ([], ts1, n)
      else '(nd, ts2, n1) <% d_atomic ts1 n ;;
           '(nds, ts3, n2) <% d_set_loop (List.length ts2 + 1) ts2 n1 ;;
           DOk (nd :: nds, ts3, n2)) ;;
  '(te, ts3) <% d_eat RSET "set" (Some (set_msg "}")) ts2 ;;
  '(nd, n2) <% of_res (mk_node U (CSet (Some te)) ts0 nds n1) ;;
  DOk (nd, ts3, n2).

(** hgpl/parsing.py 112-117, _const_rule. *)
Definition d_const (ts : list token) (n : Z) : dres (ast * list token * Z) :=
  t <% dcur ts ;;
  if is_atomic t then d_atomic ts n else d_set ts n.

Definition unexpected (t : token) (what : string) : str :=
  lit "Syntax error, unexpected " ++ type_name (t_type t) ++ lit " at char " ++ str_of_Z (t_pos t) ++ lit ". Expected "
  ++ lit what ++ lit ".".

(** hgpl/parsing.py 119-128, _var_rule. *)
Definition d_var (ts : list token) (n : Z) : dres (ast * list token * Z) :=
  t <% dcur ts ;;
  if is_att t then d_att_name ts n
  else if is_const t then d_const ts n
  else DSyn (PErr (unexpected t "attribute or constant") (t_pos t) t (lit "var")).

Definition paren_msg (lp : token) (_ : token) : str :=
  lit "Syntax error, '(' at char " ++ str_of_Z (t_pos lp) ++ lit " is missing matching ')'.".

(** hgpl/parsing.py 130-192, _exp_rule (130-160), _term_rule (162-168) and _policy_rule
    (170-192); the two while loops are [d_term_loop] and [d_policy_loop].  The calls of
    _eat for NOT_OP, LPARN and BOOL_OP stand behind a test of the same type. *)
Fixpoint d_exp (fuel : nat) (ts : list token) (n : Z) {struct fuel} : dres (ast * list token * Z) :=
  match fuel with
  | O => DExc EFuel
  | S f =>
      t <% dcur ts ;;
      if ttype_eqb (t_type t) NOT_OP then
        '(t, ts1) <% d_eat NOT_OP "exp" None ts ;;
        t1 <% dcur ts1 ;;
        '(sub, ts2, n1) <%
          (if ttype_eqb (t_type t1) LPARN then
             '(lp, ts2) <% d_eat LPARN "exp" None ts1 ;;
             '(s, ts3, n1) <% d_policy f ts2 n ;;
             '(_, ts4) <% d_eat RPARN "exp" (Some (paren_msg lp)) ts3 ;; DOk (s, ts4, n1)
           else d_bool_var ts1 n) ;;
        '(nd, n2) <% of_res (mk_node U CNot t [sub] n1) ;;
        DOk (nd, ts2, n2)
      else if ttype_eqb (t_type t) LPARN then
        '(lp, ts2) <% d_eat LPARN "exp" None ts ;;
        '(s, ts3, n1) <% d_policy f ts2 n ;;
        '(_, ts4) <% d_eat RPARN "exp" (Some (paren_msg lp)) ts3 ;; DOk (s, ts4, n1)
      else
        g <% of_res (starts_op ts) ;;
        if g : bool then
          '(l, ts1, n1) <% d_var ts n ;;
          '(o, ts2) <% d_eat OP "exp"
                         (Some (fun t => lit "Syntax error, expected operation not " ++ type_name (t_type t) ++ lit ".")) ts1 ;;
          '(r, ts3, n2) <% d_var ts2 n1 ;;
          '(nd, n3) <% of_res (mk_node U COp o [l; r] n2) ;;
          DOk (nd, ts3, n3)
        else if ttype_eqb (t_type t) BOOL || is_att t then d_bool_var ts n
        else DSyn (PErr (unexpected t "start of EXP rule") (t_pos t) t (lit "exp"))
  end
with d_term_loop (fuel : nat) (node : ast) (ts : list token) (n : Z) {struct fuel} : dres (ast * list token * Z) :=
  match fuel with
  | O => DExc EFuel
  | S f =>
      t <% dcur ts ;;
      if is_bool_op "AND" t then
        '(t, ts1) <% d_eat BOOL_OP "term" None ts ;;
        '(e, ts2, n1) <% d_exp f ts1 n ;;
        '(nd, n2) <% of_res (mk_node U CBoolOp t [node; e] n1) ;;
        d_term_loop f nd ts2 n2
      else DOk (node, ts, n)
  end
with d_term (fuel : nat) (ts : list token) (n : Z) {struct fuel} : dres (ast * list token * Z) :=
  match fuel with
  | O => DExc EFuel
  | S f => '(e, ts1, n1) <% d_exp f ts n ;; d_term_loop f e ts1 n1
  end
with d_policy_loop (fuel : nat) (node : ast) (ts : list token) (n : Z) {struct fuel} : dres (ast * list token * Z) :=
  match fuel with
  | O => DExc EFuel
  | S f =>
      t <% dcur ts ;;
      if is_bool_op "OR" t then
        '(t, ts1) <% d_eat BOOL_OP "policy" None ts ;;
        '(e, ts2, n1) <% d_term f ts1 n ;;
        '(nd, n2) <% of_res (mk_node U CBoolOp t [node; e] n1) ;;
        d_policy_loop f nd ts2 n2
      else DOk (node, ts, n)
  end
with d_policy (fuel : nat) (ts : list token) (n : Z) {struct fuel} : dres (ast * list token * Z) :=
  match fuel with
  | O => DExc EFuel
  | S f => '(e, ts1, n1) <% d_term f ts n ;; d_policy_loop f e ts1 n1
  end.

(** hgpl/parsing.py 15-18, 194-199: Parser(token_list).parse(). *)
Definition d_parse (ts : list token) (last : Z) : dres (ast * Z) :=
  match ts with
  | [] => DExc EIndex
  | _ =>
      '(_, ts1) <% d_eat START "parse"
                     (Some (fun _ => lit "Syntax error, missing START token at beginning of token list.")) ts ;;
      '(nd, ts2, n1) <% d_policy (parse_fuel ts) ts1 last ;;
      '(_, _) <% d_eat END "parse"
                   (Some (fun _ => lit "Syntax error, expected END token marking end of policy.")) ts2 ;;
      DOk (nd, n1)
  end.

(** [str(e)] of a ParserError of Parser(Lexer(text)) (hgpl/errors.py 31-37, 52-57). *)
Definition perror_str (text : str) (e : perror) : str :=
  parser_err_str U (pe_msg e) (Some text) (pe_pos e) (Some (pe_rule e)).

End WithUnicode.

(** The result with the ParserError reduced to its position, as in [Parser]. *)
Definition forget {A} (m : dres A) : res A :=
  match m with DOk a => Ok a | DSyn e => Err (EParser (pe_pos e)) | DExc x => Err x end.
