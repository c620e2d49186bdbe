(** * Parser: model of hgpl/parsing.py *)

From Coq Require Import NArith ZArith List Bool String.
From Verif Require Import PyBase PyNum Lexer Values Ast.
Import ListNotations.
Open Scope Z_scope.

(** The parser state is the token list from the current token on (Python keeps
    the list and [_pos]) together with the process-wide node counter
    [ASTNode._last_id].  A rule returns its node, the remaining tokens and the
    counter.  Rule names and messages of errors are not modelled. *)
Section WithUnicode.
Variable U : unicode.

(** [self._current_token.type]: AttributeError past the end of the list
    (hgpl/parsing.py 31-36). *)
Definition cur (ts : list token) : res token :=
  match ts with t :: _ => Ok t | [] => Err EAttribute end.

(** hgpl/parsing.py 38-47, _eat. *)
Definition eat (ty : ttype) (ts : list token) : res (token * list token) :=
  t <- cur ts ;;
  if ttype_eqb (t_type t) ty then Ok (t, tl ts) else Err (EParser (t_pos t)).

(** hgpl/parsing.py 26-29, _peek(): the bound check is off by one, so peeking
    from the last token of the list is an IndexError. *)
Definition peek (ts : list token) : res (option token) :=
  match ts with
  | [] => Ok None
  | [_] => Err EIndex
  | _ :: t :: _ => Ok (Some t)
  end.

(** hgpl/parsing.py 58-60, _is_atomic. *)
Definition is_atomic (t : token) : bool :=
  match t_type t with INT | FLOAT | STRING | NULL => true | _ => false end.
(** hgpl/parsing.py 49-51, _is_const. *)
Definition is_const (t : token) : bool :=
  is_atomic t || ttype_eqb (t_type t) LSET.
(** hgpl/parsing.py 53-56, _is_att. *)
Definition is_att (t : token) : bool :=
  match t_type t with USR_ATT | OBJ_ATT | ADM_ATT | ENV_ATT | CON_ATT => true | _ => false end.

(** hgpl/parsing.py 62-74, _att_name_rule. *)
Definition att_name_rule (ts : list token) (n : Z) : res (ast * list token * Z) :=
  t <- cur ts ;;
  c <- match t_type t with
       | USR_ATT => Ok CUsr | OBJ_ATT => Ok CObj | ADM_ATT => Ok CAdm
       | ENV_ATT => Ok CEnv | CON_ATT => Ok CCon
       | _ => Err (EParser (t_pos t))
       end ;;
  '(nd, n') <- mk_node U c t [] n ;; Ok (nd, tl ts, n').

(** hgpl/parsing.py 76-81, _bool_var_rule. *)
Definition bool_var_rule (ts : list token) (n : Z) : res (ast * list token * Z) :=
  t <- cur ts ;;
  if ttype_eqb (t_type t) BOOL then
    '(nd, n') <- mk_node U CBoolVal t [] n ;; Ok (nd, tl ts, n')
  else att_name_rule ts n.

(** hgpl/parsing.py 83-94, _atomic_rule. *)
Definition atomic_rule (ts : list token) (n : Z) : res (ast * list token * Z) :=
  t <- cur ts ;;
  c <- match t_type t with
       | INT => Ok CInt | FLOAT => Ok CFloat | STRING => Ok CString | NULL => Ok CNull
       | _ => Err (EParser (t_pos t))
       end ;;
  '(nd, n') <- mk_node U c t [] n ;; Ok (nd, tl ts, n').

(** hgpl/parsing.py 103-106, the loop of _set_rule; each round reads a comma and
    an atomic constant. *)
Fixpoint set_loop (fuel : nat) (ts : list token) (n : Z) : res (list ast * list token * Z) :=
  match fuel with
  | O => Err EFuel
  | S f =>
      t <- cur ts ;;
      if ttype_eqb (t_type t) RSET then Ok ([], ts, n)
      else '(_, ts1) <- eat COMMA ts ;;
           '(nd, ts2, n1) <- atomic_rule ts1 n ;;
           '(nds, ts3, n2) <- set_loop f ts2 n1 ;;
           Ok (nd :: nds, ts3, n2)
  end.

(** hgpl/parsing.py 96-110, _set_rule. *)
Definition set_rule (ts : list token) (n : Z) : res (ast * list token * Z) :=
  '(ts0, ts1) <- eat LSET ts ;;
  t <- cur ts1 ;;
  '(nds, ts2, n1) <-
     (if ttype_eqb (t_type t) RSET then Ok ([], ts1, n)
      else '(nd, ts2, n1) <- atomic_rule ts1 n ;;
           '(nds, ts3, n2) <- set_loop (List.length ts2 + 1) ts2 n1 ;;
           Ok (nd :: nds, ts3, n2)) ;;
  '(te, ts3) <- eat RSET ts2 ;;
  '(nd, n2) <- mk_node U (CSet (Some te)) ts0 nds n1 ;;
  Ok (nd, ts3, n2).

(** hgpl/parsing.py 112-117, _const_rule. *)
Definition const_rule (ts : list token) (n : Z) : res (ast * list token * Z) :=
  t <- cur ts ;;
  if is_atomic t then atomic_rule ts n else set_rule ts n.

(** hgpl/parsing.py 119-128, _var_rule. *)
Definition var_rule (ts : list token) (n : Z) : res (ast * list token * Z) :=
  t <- cur ts ;;
  if is_att t then att_name_rule ts n
  else if is_const t then const_rule ts n
  else Err (EParser (t_pos t)).

(** hgpl/parsing.py 145-147: does a comparison start here?  [_peek()] is only
    evaluated when the current token is not '{'. *)
Definition starts_op (ts : list token) : res bool :=
  t <- cur ts ;;
  if ttype_eqb (t_type t) LSET then Ok true
  else p <- peek ts ;;
       Ok (match p with
           | Some t2 => ttype_eqb (t_type t2) OP && (is_att t || is_const t)
           | None => false
           end).

Definition is_bool_op (w : string) (t : token) : bool :=
  ttype_eqb (t_type t) BOOL_OP && tokval_eqb (t_val t) (TStr (lit w)).

(** hgpl/parsing.py 130-192, _exp_rule (130-160), _term_rule (162-168) and
    _policy_rule (170-192).  The two while loops are the functions [term_loop]
    and [policy_loop]. *)
Fixpoint exp_rule (fuel : nat) (ts : list token) (n : Z) {struct fuel} : res (ast * list token * Z) :=
  match fuel with
  | O => Err EFuel
  | S f =>
      t <- cur ts ;;
      if ttype_eqb (t_type t) NOT_OP then
        let ts1 := tl ts in
        t1 <- cur ts1 ;;
        '(sub, ts2, n1) <-
          (if ttype_eqb (t_type t1) LPARN then
             '(s, ts2, n1) <- policy_rule f (tl ts1) n ;;
             '(_, ts3) <- eat RPARN ts2 ;; Ok (s, ts3, n1)
           else bool_var_rule ts1 n) ;;
        '(nd, n2) <- mk_node U CNot t [sub] n1 ;;
        Ok (nd, ts2, n2)
      else if ttype_eqb (t_type t) LPARN then
        '(s, ts2, n1) <- policy_rule f (tl ts) n ;;
        '(_, ts3) <- eat RPARN ts2 ;; Ok (s, ts3, n1)
      else
        g <- starts_op ts ;;
        if g : bool then
          '(l, ts1, n1) <- var_rule ts n ;;
          '(o, ts2) <- eat OP ts1 ;;
          '(r, ts3, n2) <- var_rule ts2 n1 ;;
          '(nd, n3) <- mk_node U COp o [l; r] n2 ;;
          Ok (nd, ts3, n3)
        else if ttype_eqb (t_type t) BOOL || is_att t then bool_var_rule ts n
        else Err (EParser (t_pos t))
  end
with term_loop (fuel : nat) (node : ast) (ts : list token) (n : Z) {struct fuel} : res (ast * list token * Z) :=
  match fuel with
  | O => Err EFuel
  | S f =>
      t <- cur ts ;;
      if is_bool_op "AND" t then
        '(e, ts1, n1) <- exp_rule f (tl ts) n ;;
        '(nd, n2) <- mk_node U CBoolOp t [node; e] n1 ;;
        term_loop f nd ts1 n2
      else Ok (node, ts, n)
  end
with term_rule (fuel : nat) (ts : list token) (n : Z) {struct fuel} : res (ast * list token * Z) :=
  match fuel with
  | O => Err EFuel
  | S f => '(e, ts1, n1) <- exp_rule f ts n ;; term_loop f e ts1 n1
  end
with policy_loop (fuel : nat) (node : ast) (ts : list token) (n : Z) {struct fuel} : res (ast * list token * Z) :=
  match fuel with
  | O => Err EFuel
  | S f =>
      t <- cur ts ;;
      if is_bool_op "OR" t then
        '(e, ts1, n1) <- term_rule f (tl ts) n ;;
        '(nd, n2) <- mk_node U CBoolOp t [node; e] n1 ;;
        policy_loop f nd ts1 n2
      else Ok (node, ts, n)
  end
with policy_rule (fuel : nat) (ts : list token) (n : Z) {struct fuel} : res (ast * list token * Z) :=
  match fuel with
  | O => Err EFuel
  | S f => '(e, ts1, n1) <- term_rule f ts n ;; policy_loop f e ts1 n1
  end.

Definition parse_fuel (ts : list token) : nat := 4 * List.length ts + 8.

(** hgpl/parsing.py 15-18, 194-199: Parser(token_list).parse().  An empty list
    is an IndexError in the constructor (21).  Tokens after END are ignored.
    [last] is ASTNode._last_id before the call. *)
Definition parse (ts : list token) (last : Z) : res (ast * Z) :=
  match ts with
  | [] => Err EIndex
  | _ =>
      '(_, ts1) <- eat START ts ;;
      '(nd, ts2, n1) <- policy_rule (parse_fuel ts) ts1 last ;;
      '(_, _) <- eat END ts2 ;;
      Ok (nd, n1)
  end.

(** Parser(Lexer(text)).parse() (hgpl/parsing.py 8-14). *)
Definition parse_text (text : str) (last : Z) : res (ast * Z) :=
  ts <- lex_text U text ;; parse ts last.

End WithUnicode.
