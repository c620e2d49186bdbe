(** * LexSpec: what the tokens of a policy text should be (independent of the lexer)

    The lexical part of hgpl/docs/HGPL_ABNF_V2.txt, with the restrictions that
    strings have no escapes and identifiers may contain any Unicode letter or
    digit. *)

From Coq Require Import NArith ZArith List Bool String.
From Verif Require Import PyBase PyNum FloatSpec Lexer.
Import ListNotations.
Open Scope Z_scope.

Definition len (s : str) : Z := Z.of_nat (List.length s).

(** The text after a lexeme does not start with a character in [P]. *)
Definition not_starts (P : N -> bool) (rest : str) : Prop :=
  match rest with c :: _ => P c = false | [] => True end.

Section WithUnicode.
Variable U : unicode.

Definition space (c : N) : Prop := isspace U c = true.
Definition digit (c : N) : Prop := isdigit U c = true.
Definition letter (c : N) : Prop := isalpha U c = true.
(** id = +(ALPHA / DIGIT / "_") *)
Definition id_char (c : N) : Prop := letter c \/ digit c \/ c = 95%N.
Definition id_charb (c : N) : bool := isalpha U c || isdigit U c || (c =? 95)%N.

(** Value of a digit string, reading left to right. *)
Inductive decval : str -> N -> Prop :=
| dv_nil : decval [] 0
| dv_snoc ds c n d : decval ds n -> digit_val U c = Some d ->
                     decval (ds ++ [c]) (10 * n + d)%N.

Definition sign_of (neg : bool) : str := if neg then [45%N] else [].
Definition dot_or_digit (c : N) : bool := isdigit U c || (c =? 46)%N.
Definition dot_or_id (c : N) : bool := id_charb c || (c =? 46)%N.

(** Keywords with the type and value of their token. *)
Inductive keyword : str -> ttype -> str -> Prop :=
| kw_in : keyword (lit "in") OP (lit "IN")
| kw_subset : keyword (lit "subset") OP (lit "SUBSET")
| kw_and : keyword (lit "and") BOOL_OP (lit "AND")
| kw_or : keyword (lit "or") BOOL_OP (lit "OR")
| kw_true : keyword (lit "true") BOOL (lit "TRUE")
| kw_false : keyword (lit "false") BOOL (lit "FALSE")
| kw_undef : keyword (lit "undef") BOOL (lit "UNDEF")
| kw_not : keyword (lit "not") NOT_OP (lit "NOT")
| kw_null : keyword (lit "null") NULL (lit "NULL").

(** Attribute categories. *)
Inductive category : str -> ttype -> Prop :=
| cat_user : category (lit "user") USR_ATT
| cat_object : category (lit "object") OBJ_ATT
| cat_env : category (lit "env") ENV_ATT
| cat_admin : category (lit "admin") ADM_ATT
| cat_connect : category (lit "connect") CON_ATT.

(** Symbols whose reading does not depend on what follows. *)
Inductive symbolic : str -> ttype -> tokval -> Prop :=
| sy_lset : symbolic (lit "{") LSET TNone
| sy_rset : symbolic (lit "}") RSET TNone
| sy_comma : symbolic (lit ",") COMMA TNone
| sy_lparn : symbolic (lit "(") LPARN TNone
| sy_rparn : symbolic (lit ")") RPARN TNone
| sy_eq : symbolic (lit "=") OP (TStr (lit "="))
| sy_ge : symbolic (lit ">=") OP (TStr (lit ">="))
| sy_le : symbolic (lit "<=") OP (TStr (lit "<="))
| sy_ne : symbolic (lit "!=") OP (TStr (lit "!=")).

(** [lexeme s rest ty v]: the characters [s], followed by [rest], are one lexeme
    of type [ty] and value [v]; numbers and words are taken maximally. *)
Inductive lexeme (s rest : str) : ttype -> tokval -> Prop :=
| lx_symbol ty v : symbolic s ty v -> lexeme s rest ty v
| lx_gt : s = lit ">" -> not_starts (N.eqb 61) rest -> lexeme s rest OP (TStr (lit ">"))
| lx_lt : s = lit "<" -> not_starts (N.eqb 61) rest -> lexeme s rest OP (TStr (lit "<"))
| lx_string body :
    s = 34%N :: body ++ [34%N] ->
    Forall (fun c => 32 <= c /\ c <= 126 /\ c <> 34)%N body ->
    lexeme s rest STRING (TStr body)
| lx_int neg ds n :
    s = sign_of neg ++ ds -> ds <> [] -> Forall digit ds -> decval ds n ->
    not_starts dot_or_digit rest ->
    lexeme s rest INT (TInt (if neg then - Z.of_N n else Z.of_N n))
| lx_float neg ds es n f :
    s = sign_of neg ++ ds ++ 46%N :: es -> ds <> [] -> es <> [] ->
    Forall digit ds -> Forall digit es -> decval (ds ++ es) n ->
    not_starts dot_or_digit rest ->
    rounds neg (Z.of_N n) (10 ^ Z.of_nat (List.length es)) f ->
    lexeme s rest FLOAT (TFloat f)
| lx_keyword c s' kw ty v :
    s = c :: s' -> letter c -> Forall id_char s' ->
    py_lower U s = kw -> keyword kw ty v ->
    not_starts dot_or_id rest ->
    lexeme s rest ty (TStr v)
| lx_attribute c s' d id' cat ty :
    s = (c :: s') ++ 46%N :: d :: id' -> letter c -> Forall id_char s' ->
    Forall id_char (d :: id') ->
    py_lower U (c :: s') = cat -> category cat ty ->
    not_starts id_charb rest ->
    lexeme s rest ty (TStr (d :: id')).

(** [tiles p text ts]: [ts] are the tokens of [text], whose first character has
    position [p], ending with END. *)
Inductive tiles : Z -> str -> list token -> Prop :=
| tiles_end p ws : Forall space ws -> tiles p ws [Tok END (p + len ws) TNone]
| tiles_cons p ws s rest ty v ts :
    Forall space ws -> lexeme s rest ty v ->
    tiles (p + len ws + len s) rest ts ->
    tiles p (ws ++ s ++ rest) (Tok ty (p + len ws) v :: ts).

End WithUnicode.

(** Facts about Unicode tables that hold of CPython's: letters, digits and
    spaces are disjoint, a decimal value implies isdigit, and a word with a
    non-ASCII character never lower-cases to a keyword or an attribute category
    (the only non-ASCII character whose lower case is ASCII is U+212A, and 'k'
    occurs in none of them). *)
Record unicode_ok (U : unicode) : Prop := {
  uok_space_alpha : forall c, u_space U c = true -> u_alpha U c = false;
  uok_space_digit : forall c, u_space U c = true -> u_digit U c = false;
  uok_alpha_digit : forall c, u_alpha U c = true -> u_digit U c = false;
  uok_keyword : forall s ty v, is_ascii s = false -> ~ keyword (u_lower U s) ty v;
  uok_category : forall s ty, is_ascii s = false -> ~ category (u_lower U s) ty
}.

Definition recased (a b : str) : Prop := map lower_c a = map lower_c b.
