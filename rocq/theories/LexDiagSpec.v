(** * LexDiagSpec: what is wrong with a text that cannot be read (specification) *)

From Coq Require Import NArith ZArith List Bool String.
From Verif Require Import PyBase PyNum Lexer LexSpec LexDiag.
Import ListNotations.
Open Scope Z_scope.

(** A character allowed in a string. *)
Definition string_ok (c : N) : Prop := (32 <= c /\ c <= 126 /\ c <> 34)%N.

(** How the first character of a text is shown. *)
Definition shown_as (r w : str) : Prop :=
  (exists c r', r = c :: r' /\ w = [c]) \/ (r = [] /\ w = lit "None").

(** A character no lexeme begins with, except that "-" begins a number before a digit. *)
Definition no_start (U : unicode) (c : N) (r : str) : Prop :=
  ~ space U c /\ ~ digit U c /\ ~ letter U c /\
  ~ In c [123; 125; 44; 40; 41; 61; 62; 60; 33; 34]%N /\
  (c = 45%N -> not_starts (isdigit U) r).

(** [fault p text m q t r]: the text, whose first character has position [p] and is no blank, does
    not begin with a lexeme; the message is [m], the position reported [q], the token reported [t]
    (its type and value; it begins at [p]), and the text that is read next is [r]. *)
Inductive fault (U : unicode) (p : Z) : str -> str -> Z -> option (ttype * tokval) -> str -> Prop :=
| fl_bang r : not_starts (N.eqb 61) r ->
    fault U p (33%N :: r)
      (lit "Syntax error, found '!' without matching '='. Found '!' in place of '='.")
      (p + 1) (Some (OP, TStr (lit "!="))) (33%N :: r)
| fl_open body : Forall string_ok body ->
    fault U p (34%N :: body)
      (lit "Syntax error encountered while reading string. End of policy encountered before matching "".")
      p (Some (STRING, TNone)) []
| fl_char body c r : Forall string_ok body -> ~ string_ok c -> c <> 34%N ->
    fault U p (34%N :: body ++ c :: r)
      (lit "Syntax error encountered while reading string. Invalid character, '" ++ [c] ++ lit "', found in string.")
      (p + len (34%N :: body)) (Some (STRING, TNone)) (c :: r)
| fl_point neg ds r w : ds <> [] -> Forall (digit U) ds -> not_starts (isdigit U) r -> shown_as r w ->
    fault U p (sign_of neg ++ ds ++ 46%N :: r)
      (lit "Syntax error encountered while reading floating point number. '.' should be followed by a digit and not '" ++ w ++ lit "'.")
      (p + len (sign_of neg ++ ds) + 1) (Some (FLOAT, TNone)) (46%N :: r)
| fl_points neg ds es d r : ds <> [] -> Forall (digit U) ds -> Forall (digit U) (es ++ [d]) ->
    fault U p (sign_of neg ++ ds ++ 46%N :: es ++ d :: 46%N :: r)
      (lit "Syntax error encountered while reading floating point number. Found multiple '.'s in number.")
      (p + len (sign_of neg ++ ds ++ 46%N :: es ++ [d])) (Some (FLOAT, TNone)) (d :: 46%N :: r)
| fl_category c w id d r : letter U c -> Forall (id_char U) w -> Forall (id_char U) (id ++ [d]) ->
    not_starts (id_charb U) r -> (forall ty, ~ category (py_lower U (c :: w)) ty) ->
    fault U p ((c :: w) ++ 46%N :: id ++ d :: r)
      (lit "Syntax error encountered while reading attribute name. '" ++ (c :: w) ++ lit "' is not a valid attribute type.")
      p (Some (UNK_ATT, TStr (py_lower U (c :: w)))) (d :: r)
| fl_name c w d r : letter U c -> Forall (id_char U) w -> ~ id_char U d ->
    fault U p ((c :: w) ++ 46%N :: d :: r)
      (lit "Syntax error encountered while reading attribute name. '.' needs to be followed by an identifier and not '" ++ [d] ++ lit "'.")
      (p + len (c :: w) + 1) (Some (UNK_ATT, TStr (py_lower U (c :: w)))) (d :: r)
| fl_word w d r : (exists c w', w ++ [d] = c :: w' /\ letter U c /\ Forall (id_char U) w') ->
    not_starts (dot_or_id U) r -> (forall ty v, ~ keyword (py_lower U (w ++ [d])) ty v) ->
    fault U p (w ++ d :: r)
      (lit "Syntax error, encountered an unknown identifier, '" ++ (w ++ [d]) ++ lit "'.")
      p (Some (UNK_ID, TStr (w ++ [d]))) (d :: r)
| fl_other c r : no_start U c r ->
    fault U p (c :: r)
      (lit "Syntax error, encountered an unexpected character, '" ++ [c] ++ lit "'.")
      p None (c :: r).

(** The two faults that raise something else: an attribute name missing at the end of the text, and
    a number with a digit that has no decimal value. *)
Inductive crash (U : unicode) : str -> exc -> str -> Prop :=
| cr_end c w : letter U c -> Forall (id_char U) w ->
    crash U ((c :: w) ++ [46%N]) EAttribute []
| cr_int neg ds d r : Forall (digit U) (ds ++ [d]) -> (forall n, ~ decval U (ds ++ [d]) n) -> not_starts (dot_or_digit U) r ->
    crash U (sign_of neg ++ ds ++ d :: r) EValue (d :: r)
| cr_float neg ds es d r : ds <> [] -> Forall (digit U) ds -> Forall (digit U) (es ++ [d]) ->
    (forall n, ~ decval U (ds ++ es ++ [d]) n) -> not_starts (dot_or_digit U) r ->
    crash U (sign_of neg ++ ds ++ 46%N :: es ++ d :: r) EValue (d :: r).

(** The token an error at [p] holds. *)
Definition blamed (p : Z) (t : option (ttype * tokval)) : option token :=
  option_map (fun '(ty, v) => Tok ty p v) t.

(** [reads p text ts q rest]: the tokens [ts] are read from the text, whose first character has
    position [p], up to [rest], which has position [q]. *)
Inductive reads (U : unicode) : Z -> str -> list token -> Z -> str -> Prop :=
| rd_none p text : reads U p text [] p text
| rd_token p ws s rest ty v ts q rest' :
    Forall (space U) ws -> lexeme U s rest ty v ->
    reads U (p + len ws + len s) rest ts q rest' ->
    reads U p (ws ++ s ++ rest) (Tok ty (p + len ws) v :: ts) q rest'.

(** The tokens are lexemes of the text at their positions, in order and without overlap; END is at
    the end of the text. *)
Inductive picks (U : unicode) : Z -> str -> list token -> Prop :=
| pk_none p text : picks U p text []
| pk_skip p c text ts : picks U (p + 1) text ts -> picks U p (c :: text) ts
| pk_token p s rest ty v ts : lexeme U s rest ty v -> picks U (p + len s) rest ts -> picks U p (s ++ rest) (Tok ty p v :: ts)
| pk_end p : picks U p [] [Tok END p TNone].

(** Calls made on a lexer, whatever they return or raise. *)
Inductive call : Type := Next | Tokenize.
Fixpoint after (U : unicode) (cs : list call) (l : lexer) : lexer :=
  match cs with
  | [] => l
  | Next :: cs => after U cs (snd (ld_next U l))
  | Tokenize :: cs => after U cs (snd (ld_tokenize U l))
  end.

(** [k] calls of next(). *)
Fixpoint calls (U : unicode) (k : nat) (l : lexer) : lexer :=
  match k with O => l | S k => calls U k (snd (ld_next U l)) end.
