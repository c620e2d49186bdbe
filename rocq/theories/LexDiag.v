(** * LexDiag: model of hgpl/lexing.py with the contents of its errors and the state they leave *)

From Coq Require Import NArith ZArith List Bool String.
From Verif Require Import PyBase PyNum Lexer AttCert Errors.
Import ListNotations.
Open Scope Z_scope.

(** The attributes of a LexerError beside the policy text, which every error gets from the
    lexer (hgpl/errors.py 39-43). *)
Record lerror : Type := LErr { le_msg : str; le_pos : Z; le_tok : option token }.

(** What is raised. *)
Inductive raised : Type := RSyn (e : lerror) | RExc (x : exc).

(** The end of a step: a value, or an exception with [_text_pos] and the text from there on at
    the time it is raised. *)
Inductive lres (A : Type) : Type :=
| LOk (a : A)
| LRaise (x : raised) (pos : Z) (rest : str).
Arguments LOk {A} a.
Arguments LRaise {A} x pos rest.

Definition lbind {A B} (m : lres A) (f : A -> lres B) : lres B :=
  match m with LOk a => f a | LRaise x p r => LRaise x p r end.
Notation "' p <@ m ;; k" := (lbind m (fun p => k))
  (at level 61, p pattern, m at next level, right associativity).

(** ["{}".format(self._peek())] and the like: the character, or None at the end. *)
Definition char_text (r : str) : str := match r with c :: _ => [c] | [] => lit "None" end.

(** str(e) of a LexerError (hgpl/errors.py 31-37). *)
Definition lerror_str (text : str) (e : lerror) : str := err_str (le_msg e) (Some text) (le_pos e).

Section WithUnicode.
Variable U : unicode.

Definition dot_msg (r : str) : str :=
  lit "Syntax error encountered while reading floating point number. '.' should be followed by a digit and not '"
  ++ char_text r ++ lit "'.".
Definition dots_msg : str :=
  lit "Syntax error encountered while reading floating point number. Found multiple '.'s in number.".

(** hgpl/lexing.py 109-125, the loop of _number as [num_loop]; [start] is pos_at_start and [cur] the
    current character, which is at [pos - 1]. *)
Fixpoint ld_num (isf : bool) (start pos : Z) (cur : N) (rest : str) : lres (bool * str * Z * str) :=
  match rest with
  | [] => LOk (isf, [], pos, rest)
  | c :: r =>
      if isdigit U c then
        '(f, cs, p, r') <@ ld_num isf start (pos + 1) c r ;; LOk (f, c :: cs, p, r')
      else if (c =? 46)%N then
        if isf then LRaise (RSyn (LErr dots_msg pos (Some (Tok FLOAT start TNone)))) (pos - 1) (cur :: rest)
        else if match r with d :: _ => isdigit U d | [] => false end then
          '(f, cs, p, r') <@ ld_num true start (pos + 1) c r ;; LOk (f, c :: cs, p, r')
        else LRaise (RSyn (LErr (dot_msg r) (pos + 1) (Some (Tok FLOAT start TNone)))) pos rest
      else LOk (isf, [], pos, rest)
  end.

(** A conversion that raises leaves the lexer on the last character [last] of the lexeme; the text
    after it is [r] at [p]. *)
Definition at_last {A} (m : res A) (last : N) (p : Z) (r : str) : lres A :=
  match m with Ok a => LOk a | Err x => LRaise (RExc x) (p - 1) (last :: r) end.

(** hgpl/lexing.py 105-130, _number. *)
Definition ld_number (pos : Z) (c : N) (rest : str) : lres (token * Z * str) :=
  '(f, cs, p, r) <@ ld_num false pos (pos + 1) c rest ;;
  if f : bool then 'v <@ at_last (py_float U (c :: cs)) (List.last cs c) p r ;; LOk (Tok FLOAT pos (TFloat v), p, r)
  else 'v <@ at_last (py_int U (c :: cs)) (List.last cs c) p r ;; LOk (Tok INT pos (TInt v), p, r).

(** hgpl/lexing.py 132-149, _string. *)
Fixpoint ld_string (start pos : Z) (rest : str) : lres (str * Z * str) :=
  match rest with
  | [] => LRaise (RSyn (LErr (lit "Syntax error encountered while reading string. End of policy encountered before matching "".")
                             start (Some (Tok STRING start TNone)))) pos []
  | c :: r =>
      if (c =? 34)%N then LOk ([], pos + 1, r)
      else if string_char c then
        '(s, p, r') <@ ld_string start (pos + 1) r ;; LOk (c :: s, p, r')
      else LRaise (RSyn (LErr (lit "Syntax error encountered while reading string. Invalid character, '" ++ [c] ++ lit "', found in string.")
                              pos (Some (Tok STRING start TNone)))) pos rest
  end.

(** hgpl/lexing.py 226-266: a token that starts with a letter [c] at [pos]. *)
Definition ld_word (pos : Z) (c : N) (rest : str) : lres (token * Z * str) :=
  let '(s, p, r) := span_id U (pos + 1) rest in
  let prefix := c :: s in
  let lw := py_lower U prefix in
  let dot := match r with d :: _ => (d =? 46)%N | [] => false end in
  if dot then
    match tl r with
    | [] => LRaise (RExc EAttribute) (p + 1) []
    | d :: r2 =>
        if idchar U d then
          let '(s2, p2, r3) := span_id U (p + 2) r2 in
          match att_prefix lw with
          | Some ty => LOk (Tok ty pos (TStr (d :: s2)), p2, r3)
          | None => LRaise (RSyn (LErr (lit "Syntax error encountered while reading attribute name. '" ++ prefix ++ lit "' is not a valid attribute type.")
                                       pos (Some (Tok UNK_ATT pos (TStr lw))))) (p2 - 1) (List.last s2 d :: r3)
          end
        else LRaise (RSyn (LErr (lit "Syntax error encountered while reading attribute name. '.' needs to be followed by an identifier and not '"
                                 ++ char_text (d :: r2) ++ lit "'.")
                                (p + 1) (Some (Tok UNK_ATT pos (TStr lw))))) (p + 1) (d :: r2)
    end
  else if str_eqb lw (lit "in") || str_eqb lw (lit "subset") then
    LOk (Tok OP pos (TStr (py_upper U prefix)), p, r)
  else if str_eqb lw (lit "and") || str_eqb lw (lit "or") then
    LOk (Tok BOOL_OP pos (TStr (py_upper U prefix)), p, r)
  else if str_eqb lw (lit "true") || str_eqb lw (lit "false") || str_eqb lw (lit "undef") then
    LOk (Tok BOOL pos (TStr (py_upper U prefix)), p, r)
  else if str_eqb lw (lit "not") then LOk (Tok NOT_OP pos (TStr (lit "NOT")), p, r)
  else if str_eqb lw (lit "null") then LOk (Tok NULL pos (TStr (lit "NULL")), p, r)
  else LRaise (RSyn (LErr (lit "Syntax error, encountered an unknown identifier, '" ++ prefix ++ lit "'.")
                          pos (Some (Tok UNK_ID pos (TStr prefix))))) (p - 1) (List.last s c :: r).

(** hgpl/lexing.py 190-226, 271-273, the branches of next() on the current character [c] at [pos]. *)
Definition ld_char (pos : Z) (c : N) (rest : str) : lres (token * Z * str) :=
  if (c =? 123)%N then LOk (Tok LSET pos TNone, pos + 1, rest)
  else if (c =? 125)%N then LOk (Tok RSET pos TNone, pos + 1, rest)
  else if (c =? 44)%N then LOk (Tok COMMA pos TNone, pos + 1, rest)
  else if (c =? 40)%N then LOk (Tok LPARN pos TNone, pos + 1, rest)
  else if (c =? 41)%N then LOk (Tok RPARN pos TNone, pos + 1, rest)
  else if (c =? 61)%N then LOk (Tok OP pos (TStr (lit "=")), pos + 1, rest)
  else if (c =? 62)%N then
    if head_is 61 rest then LOk (Tok OP pos (TStr (lit ">=")), pos + 2, tl rest)
    else LOk (Tok OP pos (TStr (lit ">")), pos + 1, rest)
  else if (c =? 60)%N then
    if head_is 61 rest then LOk (Tok OP pos (TStr (lit "<=")), pos + 2, tl rest)
    else LOk (Tok OP pos (TStr (lit "<")), pos + 1, rest)
  else if (c =? 33)%N then
    if head_is 61 rest then LOk (Tok OP pos (TStr (lit "!=")), pos + 2, tl rest)
    else LRaise (RSyn (LErr (lit "Syntax error, found '!' without matching '='. Found '" ++ [c] ++ lit "' in place of '='.")
                            (pos + 1) (Some (Tok OP pos (TStr (lit "!=")))))) pos (c :: rest)
  else if (c =? 34)%N then
    '(s, p, r) <@ ld_string pos (pos + 1) rest ;; LOk (Tok STRING pos (TStr s), p, r)
  else if isdigit U c ||
          ((c =? 45)%N && match rest with d :: _ => isdigit U d | [] => false end) then
    ld_number pos c rest
  else if isalpha U c then ld_word pos c rest
  else LRaise (RSyn (LErr (lit "Syntax error, encountered an unexpected character, '" ++ [c] ++ lit "'.") pos None)) pos (c :: rest).

(** What a call of next() returns or raises. *)
Inductive outcome : Type := Gave (t : option token) | Raised (x : raised).

(** hgpl/lexing.py 181-275, next(), with the lexer left behind in every case. *)
Definition ld_next (l : lexer) : outcome * lexer :=
  let '(p, r) := skip_ws U (lx_pos l) (lx_rest l) in
  match r with
  | [] =>
      match last_type (lx_toks l) with
      | Some END => (Gave None, Lx p r (lx_toks l) (lx_atts l))
      | _ => let t := Tok END p TNone in
             (Gave (Some t), Lx (p + 1) [] (lx_toks l ++ [t]) (lx_atts l))
      end
  | c :: r1 =>
      match ld_char p c r1 with
      | LOk (t, p', r') => (Gave (Some t), Lx p' r' (lx_toks l ++ [t])
                              (if is_att_type (t_type t) then lx_atts l ++ [t] else lx_atts l))
      | LRaise x p' r' => (Raised x, Lx p' r' (lx_toks l) (lx_atts l))
      end
  end.

(** hgpl/lexing.py 177-179, tokenize(): repeat next() until it returns None or raises. *)
Fixpoint ld_loop (fuel : nat) (l : lexer) : option raised * lexer :=
  match fuel with
  | O => (Some (RExc EFuel), l)
  | S f => match ld_next l with
           | (Gave (Some _), l') => ld_loop f l'
           | (Gave None, l') => (None, l')
           | (Raised x, l') => (Some x, l')
           end
  end.

Definition ld_tokenize (l : lexer) : option raised * lexer :=
  ld_loop (List.length (lx_rest l) + 2) l.

(** hgpl/lexing.py 171-175, token_string(): the names of the types, separated by blanks. *)
Definition token_string (names : list str) : str :=
  removelast (flat_map (fun n => n ++ [32%N]) names).

End WithUnicode.

(** Leaving out the contents of an error. *)
Definition plain (x : raised) : exc :=
  match x with RSyn e => ELexer (le_pos e) | RExc x => x end.
Definition lforget {A} (m : lres A) : res A :=
  match m with LOk a => Ok a | LRaise x _ _ => Err (plain x) end.
