(** * Lexer: model of hgpl/lexing.py *)

From Coq Require Import NArith ZArith List Bool String Lia.
From Verif Require Import PyBase PyNum.
Import ListNotations.
Open Scope Z_scope.

(** hgpl/lexing.py 7-30, class TokenType. *)
Inductive ttype : Type :=
| OP | BOOL_OP | NOT_OP | USR_ATT | OBJ_ATT | ENV_ATT | ADM_ATT | CON_ATT
| UNK_ATT | UNK_ID | NULL | BOOL | INT | FLOAT | STRING | LSET | RSET
| LPARN | RPARN | COMMA | START | END.

(** hgpl/lexing.py 9-30: the enum's integer values. *)
Definition ttype_val (t : ttype) : N :=
  match t with
  | OP => 1 | BOOL_OP => 2 | NOT_OP => 3 | USR_ATT => 4 | OBJ_ATT => 5
  | ENV_ATT => 6 | ADM_ATT => 7 | CON_ATT => 8 | UNK_ATT => 9 | UNK_ID => 10
  | NULL => 11 | BOOL => 12 | INT => 13 | FLOAT => 14 | STRING => 15
  | LSET => 16 | RSET => 17 | LPARN => 18 | RPARN => 19 | COMMA => 20
  | START => 21 | END => 22
  end%N.

Definition ttype_eqb (a b : ttype) : bool := (ttype_val a =? ttype_val b)%N.

(** Token.value (hgpl/lexing.py 33-37): None, a str, an int or a float. *)
Inductive tokval : Type :=
| TNone | TStr (s : str) | TInt (z : Z) | TFloat (f : pyfloat).

(** hgpl/lexing.py 33-37, class Token; [__str__] and [__repr__] are in Show.v. *)
Record token : Type := Tok { t_type : ttype; t_pos : Z; t_val : tokval }.

(** [==] of two token values. *)
Definition tokval_eqb (a b : tokval) : bool :=
  match a, b with
  | TNone, TNone => true
  | TStr x, TStr y => str_eqb x y
  | TInt x, TInt y => x =? y
  | TFloat x, TFloat y => float_eqb x y
  | TInt x, TFloat y => num_eqb (NInt x) (NFloat y)
  | TFloat x, TInt y => num_eqb (NFloat x) (NInt y)
  | _, _ => false
  end.

(** hgpl/lexing.py 60-63, Token.__eq__. *)
Definition token_eqb (a b : token) : bool :=
  ttype_eqb (t_type a) (t_type b) && tokval_eqb (t_val a) (t_val b)
  && (t_pos a =? t_pos b).

(** hgpl/lexing.py 69-78, class Lexer.  The text from the current character on
    is kept as [lx_rest]; Python keeps the whole text and recomputes
    [_current_char] as the head of this suffix. *)
Record lexer : Type := Lx {
  lx_pos : Z;             (* _text_pos *)
  lx_rest : str;          (* policy_text[_text_pos:] *)
  lx_toks : list token;   (* _token_list *)
  lx_atts : list token    (* _att_list *)
}.

Definition lexer_init (text : str) : lexer :=
  Lx 0 text [Tok START 0 TNone] [].

Section WithUnicode.
Variable U : unicode.

(** hgpl/lexing.py 93-95, _whitespace. *)
Fixpoint skip_ws (pos : Z) (rest : str) : Z * str :=
  match rest with
  | c :: r => if isspace U c then skip_ws (pos + 1) r else (pos, rest)
  | [] => (pos, rest)
  end.

(** hgpl/lexing.py 97-103, _string_char. *)
Definition string_char (c : N) : bool :=
  ((35 <=? c) && (c <=? 126) || (c =? 32) || (c =? 33))%N.

(** hgpl/lexing.py 109-125, the loop of _number, started after the first character.  Returns
    whether a '.' was read, the characters read, and the position and text after
    the number.  (Python stops on the last character of the number and [next]
    advances past it; here that advance is included.) *)
Fixpoint num_loop (isf : bool) (pos : Z) (rest : str) : res (bool * str * Z * str) :=
  match rest with
  | [] => Ok (isf, [], pos, rest)
  | c :: r =>
      if isdigit U c then
        '(f, cs, p, r') <- num_loop isf (pos + 1) r ;; Ok (f, c :: cs, p, r')
      else if (c =? 46)%N then
        if isf then Err (ELexer pos)
        else match r with
             | d :: _ => if isdigit U d then
                           '(f, cs, p, r') <- num_loop true (pos + 1) r ;;
                           Ok (f, c :: cs, p, r')
                         else Err (ELexer (pos + 1))
             | [] => Err (ELexer (pos + 1))
             end
      else Ok (isf, [], pos, rest)
  end.

(** Value of a digit string as read by [int()] / [float()]; None is ValueError
    (a character that is a digit but not a decimal, e.g. superscript two). *)
Fixpoint digits_val (acc : N) (cs : str) : option N :=
  match cs with
  | [] => Some acc
  | c :: r => match digit_val U c with
              | Some d => digits_val (10 * acc + d) r
              | None => None
              end
  end.

Definition strip_sign (cs : str) : bool * str :=
  match cs with
  | c :: r => if (c =? 45)%N then (true, r) else (false, cs)
  | [] => (false, cs)
  end.

(** [int(numstring)] (hgpl/lexing.py 128) on an optional '-' followed by digits. *)
Definition py_int (cs : str) : res Z :=
  let '(neg, ds) := strip_sign cs in
  match digits_val 0 ds with
  | Some n => Ok (if neg : bool then - Z.of_N n else Z.of_N n)
  | None => Err EValue
  end.

Fixpoint split_dot (cs : str) : str * str :=
  match cs with
  | [] => ([], [])
  | c :: r => if (c =? 46)%N then ([], r)
              else let '(a, b) := split_dot r in (c :: a, b)
  end.

(** [float(numstring)] (hgpl/lexing.py 130) on an optional '-', digits, '.', digits. *)
Definition py_float (cs : str) : res pyfloat :=
  let '(neg, ds) := strip_sign cs in
  let '(a, b) := split_dot ds in
  match digits_val 0 (a ++ b) with
  | Some n => Ok (float_of_dec neg n (N.of_nat (List.length b)))
  | None => Err EValue
  end.

(** hgpl/lexing.py 105-130, _number; [c] is the current character at [pos], [rest] follows it. *)
Definition lex_number (pos : Z) (c : N) (rest : str) : res (token * Z * str) :=
  '(f, cs, p, r) <- num_loop false (pos + 1) rest ;;
  if f : bool then v <- py_float (c :: cs) ;; Ok (Tok FLOAT pos (TFloat v), p, r)
  else v <- py_int (c :: cs) ;; Ok (Tok INT pos (TInt v), p, r).

(** hgpl/lexing.py 137-148, the loop of _string, started after the opening quote.  As for
    numbers, the advance past the closing quote is included. *)
Fixpoint string_loop (start pos : Z) (rest : str) : res (str * Z * str) :=
  match rest with
  | [] => Err (ELexer start)
  | c :: r =>
      if (c =? 34)%N then Ok ([], pos + 1, r)
      else if string_char c then
        '(s, p, r') <- string_loop start (pos + 1) r ;; Ok (c :: s, p, r')
      else Err (ELexer pos)
  end.

Definition idchar (c : N) : bool :=
  isalpha U c || isdigit U c || (c =? 95)%N.

(** hgpl/lexing.py 151-156, _id: maximal run of identifier characters after the current one;
    the advance past its last character is included. *)
Fixpoint span_id (pos : Z) (rest : str) : str * Z * str :=
  match rest with
  | c :: r => if idchar c then let '(s, p, r') := span_id (pos + 1) r in (c :: s, p, r')
              else ([], pos, rest)
  | [] => ([], pos, rest)
  end.

(** hgpl/lexing.py 234-243: attribute category named by a lower-cased prefix. *)
Definition att_prefix (p : str) : option ttype :=
  if str_eqb p (lit "user") then Some USR_ATT
  else if str_eqb p (lit "object") then Some OBJ_ATT
  else if str_eqb p (lit "env") then Some ENV_ATT
  else if str_eqb p (lit "admin") then Some ADM_ATT
  else if str_eqb p (lit "connect") then Some CON_ATT
  else None.

(** hgpl/lexing.py 226-266: a token that starts with a letter [c] at [pos]. *)
Definition lex_word (pos : Z) (c : N) (rest : str) : res (token * Z * str) :=
  let '(s, p, r) := span_id (pos + 1) rest in
  let prefix := c :: s in
  let lw := py_lower U prefix in
  let dot := match r with d :: _ => (d =? 46)%N | [] => false end in
  if dot then
    match tl r with
    | [] => Err EAttribute          (* self._current_char is None, hgpl/lexing.py 232 *)
    | d :: r2 =>
        if idchar d then
          let '(s2, p2, r3) := span_id (p + 2) r2 in
          match att_prefix lw with
          | Some ty => Ok (Tok ty pos (TStr (d :: s2)), p2, r3)
          | None => Err (ELexer pos)
          end
        else Err (ELexer (p + 1))
    end
  else if str_eqb lw (lit "in") || str_eqb lw (lit "subset") then
    Ok (Tok OP pos (TStr (py_upper U prefix)), p, r)
  else if str_eqb lw (lit "and") || str_eqb lw (lit "or") then
    Ok (Tok BOOL_OP pos (TStr (py_upper U prefix)), p, r)
  else if str_eqb lw (lit "true") || str_eqb lw (lit "false") || str_eqb lw (lit "undef") then
    Ok (Tok BOOL pos (TStr (py_upper U prefix)), p, r)
  else if str_eqb lw (lit "not") then Ok (Tok NOT_OP pos (TStr (lit "NOT")), p, r)
  else if str_eqb lw (lit "null") then Ok (Tok NULL pos (TStr (lit "NULL")), p, r)
  else Err (ELexer pos).

Definition head_is (c : N) (s : str) : bool :=
  match s with d :: _ => (d =? c)%N | [] => false end.

(** hgpl/lexing.py 190-226, 271-273, the branches of next() on the current character [c] at [pos]. *)
Definition lex_char (pos : Z) (c : N) (rest : str) : res (token * Z * str) :=
  if (c =? 123)%N then Ok (Tok LSET pos TNone, pos + 1, rest)
  else if (c =? 125)%N then Ok (Tok RSET pos TNone, pos + 1, rest)
  else if (c =? 44)%N then Ok (Tok COMMA pos TNone, pos + 1, rest)
  else if (c =? 40)%N then Ok (Tok LPARN pos TNone, pos + 1, rest)
  else if (c =? 41)%N then Ok (Tok RPARN pos TNone, pos + 1, rest)
  else if (c =? 61)%N then Ok (Tok OP pos (TStr (lit "=")), pos + 1, rest)
  else if (c =? 62)%N then
    if head_is 61 rest then Ok (Tok OP pos (TStr (lit ">=")), pos + 2, tl rest)
    else Ok (Tok OP pos (TStr (lit ">")), pos + 1, rest)
  else if (c =? 60)%N then
    if head_is 61 rest then Ok (Tok OP pos (TStr (lit "<=")), pos + 2, tl rest)
    else Ok (Tok OP pos (TStr (lit "<")), pos + 1, rest)
  else if (c =? 33)%N then
    if head_is 61 rest then Ok (Tok OP pos (TStr (lit "!=")), pos + 2, tl rest)
    else Err (ELexer (pos + 1))
  else if (c =? 34)%N then
    '(s, p, r) <- string_loop pos (pos + 1) rest ;; Ok (Tok STRING pos (TStr s), p, r)
  else if isdigit U c ||
          ((c =? 45)%N && match rest with d :: _ => isdigit U d | [] => false end) then
    lex_number pos c rest
  else if isalpha U c then lex_word pos c rest
  else Err (ELexer pos).

Definition is_att_type (t : ttype) : bool :=
  match t with USR_ATT | OBJ_ATT | ENV_ATT | ADM_ATT | CON_ATT => true | _ => false end.

Definition last_type (ts : list token) : option ttype :=
  match rev ts with t :: _ => Some (t_type t) | [] => None end.

(** hgpl/lexing.py 181-275, next().  Returns None (no further token) or the new token and the
    lexer after it.  The state left behind by a raised exception is not modelled. *)
Definition lex_next (l : lexer) : res (option token * lexer) :=
  let '(p, r) := skip_ws (lx_pos l) (lx_rest l) in
  match r with
  | [] =>
      match last_type (lx_toks l) with
      | Some END => Ok (None, Lx p r (lx_toks l) (lx_atts l))
      | _ => let t := Tok END p TNone in
             Ok (Some t, Lx (p + 1) [] (lx_toks l ++ [t]) (lx_atts l))
      end
  | c :: r1 =>
      '(t, p', r') <- lex_char p c r1 ;;
      Ok (Some t, Lx p' r' (lx_toks l ++ [t])
                     (if is_att_type (t_type t) then lx_atts l ++ [t] else lx_atts l))
  end.

(** hgpl/lexing.py 177-179, tokenize(): repeat next() until it returns None. *)
Fixpoint tokenize_loop (fuel : nat) (l : lexer) : res lexer :=
  match fuel with
  | O => Err EFuel
  | S f => '(t, l') <- lex_next l ;;
           match t with Some _ => tokenize_loop f l' | None => Ok l' end
  end.

Definition tokenize (l : lexer) : res lexer :=
  tokenize_loop (List.length (lx_rest l) + 2) l.

(** Lexer(text).tokenize() followed by toke_list(). *)
Definition lex_text (text : str) : res (list token) :=
  l <- tokenize (lexer_init text) ;; Ok (lx_toks l).

End WithUnicode.
