(** * ShownProps: str() of the errors of a policy text (C106, C108) *)

From Coq Require Import NArith ZArith List Bool String Lia.
From Verif Require Import PyBase PyNum Lexer LexSpec LexProofs LexProofs2 LexProps Values Ast Parser Grammar ParsePos AttCert Errors ErrorProps
  Diag DiagSpec DiagProps LexDiag LexDiagSpec LexDiagProps ShowSpec ShowProofs3.
Import ListNotations.
Open Scope Z_scope.

Lemma shown_text (m text : str) p : text <> [] -> 0 <= p ->
  exists s, excerpt text p 10 s /\ err_str m (Some text) p = m ++ lit " @ char " ++ str_of_Z p ++ lit " near '" ++ s ++ lit "'".
Proof.
  intros T P. destruct (near (Some text) p 10) as [s|] eqn:E.
  - exists s. split; [apply (C56_near text p 10 s T P); [lia|exact E]|].
    rewrite C64_text, E. destruct (Z.leb_spec 0 p); [|lia]. now rewrite <- !app_assoc.
  - apply C56_none in E as [E|[E|E]]; [discriminate|congruence|lia].
Qed.

Lemma culprit_in ts u t : culprit ts u t -> In t ts.
Proof. intros [y v -> _ _ _|v -> _]; apply in_app_iff; right; now left. Qed.

(** The rules as str() names them. *)
Definition rule_names : list (str * str) :=
  map (fun '(a, b) => (lit a, lit b))
    [("exp", "EXP"); ("att_name", "ATT_NAME"); ("atomic", "ATOMIC"); ("set", "SET"); ("var", "VAR"); ("parse", "PARSE")]%string.

(** C106.  str() of a syntax error is the message, the position of the token, the text within ten
    characters of it and the rule. *)
Theorem C106_shown (U : unicode) (text : str) (ts : list token) (last : Z) (e : perror) :
  unicode_ok U -> lex_text U text = Ok ts -> d_parse U ts last = DSyn e -> text <> [] ->
  exists s rule, excerpt text (t_pos (pe_tok e)) 10 s /\ In (pe_rule e, rule) rule_names /\ In (pe_tok e) ts /\
    perror_str U text e = pe_msg e ++ lit " @ char " ++ str_of_Z (t_pos (pe_tok e)) ++ lit " near '" ++ s ++ lit "' while parsing " ++ rule ++ lit " rule.".
Proof.
  intros uok H D T. apply (C106_message U text ts last e uok H) in D as (u & t & k & C & _ & ->). cbn [pe_tok pe_rule pe_msg].
  assert (P : In t ts /\ 0 <= t_pos t).
  { apply culprit_in in C. split; [exact C|]. apply (lex_text_iff U uok) in H as (ts' & -> & Tl). destruct C as [<-|C]; [cbn; lia|].
    apply tiles_lexed in Tl; [|lia]. rewrite Forall_forall in Tl. now apply Tl. }
  destruct P as [I P].
  destruct (shown_text (wording k (type_name (t_type t)) (t_pos t)) text (t_pos t) T P) as (s & X & E).
  assert (G : forall r R, r <> [] -> py_upper U r = R ->
    match r with [] => (wording k (type_name (t_type t)) (t_pos t) ++ lit " @ char " ++ str_of_Z (t_pos t) ++ lit " near '" ++ s ++ lit "'") | _ =>
      (wording k (type_name (t_type t)) (t_pos t) ++ lit " @ char " ++ str_of_Z (t_pos t) ++ lit " near '" ++ s ++ lit "'") ++ lit " while parsing " ++ py_upper U r ++ lit " rule." end =
    wording k (type_name (t_type t)) (t_pos t) ++ lit " @ char " ++ str_of_Z (t_pos t) ++ lit " near '" ++ s ++ lit "' while parsing " ++ R ++ lit " rule.").
  { intros [|c r] R N <-; [congruence|]. change (lit "' while parsing ") with (lit "'" ++ lit " while parsing "). now rewrite <- !app_assoc. }
  assert (Q : exists R, In (rule_of k, R) rule_names /\ rule_of k <> [] /\ py_upper U (rule_of k) = R).
  { destruct k; cbn [rule_of];
      [exists (lit "EXP")|exists (lit "ATT_NAME")|exists (lit "ATOMIC")|exists (lit "SET")|exists (lit "VAR")|exists (lit "EXP")|exists (lit "EXP")|exists (lit "PARSE")];
      (split; [unfold rule_names; cbn [map In]; auto 8|split; [discriminate|reflexivity]]). }
  destruct Q as (R & Q1 & Q2 & Q3). exists s, R. split; [exact X|]. split; [exact Q1|]. split; [exact I|].
  unfold perror_str, parser_err_str. cbn [pe_msg pe_pos pe_rule]. rewrite E. now apply G.
Qed.
Print Assumptions C106_shown.

(** C108.  str() of a LexerError likewise, without a rule. *)
Theorem C108_shown (U : unicode) (text : str) (e : lerror) (l : lexer) : unicode_ok U ->
  ld_tokenize U (lexer_init text) = (Some (RSyn e), l) ->
  exists s, excerpt text (le_pos e) 10 s /\
    lerror_str text e = le_msg e ++ lit " @ char " ++ str_of_Z (le_pos e) ++ lit " near '" ++ s ++ lit "'".
Proof.
  intros uok H. pose proof (C108_points U text e l uok H) as (P & _). apply shown_text; [|lia].
  intros ->. vm_compute in H. discriminate.
Qed.
Print Assumptions C108_shown.

(** A text for each. *)
Example ex_parse_error : exists ts e, lex_text ascii_only (lit "user.age >= 18 AND NOT 5 = user.b") = Ok ts /\ d_parse ascii_only ts 0 = DSyn e /\
  t_pos (pe_tok e) = 23 /\ excerpt (lit "user.age >= 18 AND NOT 5 = user.b") 23 10 (lit "8 AND NOT 5 = user.b").
Proof.
  destruct (lex_text ascii_only (lit "user.age >= 18 AND NOT 5 = user.b")) as [ts|] eqn:E; [|vm_compute in E; discriminate].
  exists ts. vm_compute in E. injection E as <-. eexists. split; [reflexivity|]. split; [vm_compute; reflexivity|]. split; [reflexivity|].
  exists (lit "user.age >= 1"), []. split; [reflexivity|]. vm_compute. auto.
Qed.
Example ex_lex_error : exists e l, ld_tokenize ascii_only (lexer_init (lit "user.age >= 18 AND usr.b = 5")) = (Some (RSyn e), l) /\
  lerror_str (lit "user.age >= 18 AND usr.b = 5") e
  = lit "Syntax error encountered while reading attribute name. 'usr' is not a valid attribute type. @ char 19 near '>= 18 AND usr.b = 5'".
Proof. do 2 eexists. split; vm_compute; reflexivity. Qed.
