(** * RepoTests: the unit tests of hgpl/test, run on the model

    Written by tools/gen_repo_tests.py, which reads the test files as text.  These are tests of the
    model, not proofs of properties: each Example is one test method, with the policies and the
    expected tokens, errors, trees, issues and results found there.  Floats are the exact numbers
    that Python makes of the literals. *)

From Coq Require Import NArith ZArith List Bool String.
From Coq Require Import Floats.SpecFloat.
From Verif Require Import PyBase PyNum Lexer Values Ast Parser Symbols LexDiag Diag TypeCheck Interp AstCodec.
Import ListNotations.
Open Scope Z_scope.

Notation U := ascii_only.
Definition all_true (l : list bool) : Prop := forallb (fun b => b) l = true.
Definition nd (c : nclass) (t : token) (kids : list ast) : ast := Node c t 0 None kids.

Fixpoint tokens_eqb (a b : list token) : bool :=
  match a, b with [], [] => true | x :: a, y :: b => token_eqb x y && tokens_eqb a b | _, _ => false end.
Definition type_str (t : token) : str := type_name (t_type t).
(** test_lexing.py, _check_policy: tokenize(), and next() until there is no token. *)
Fixpoint nexts (fuel : nat) (l : lexer) : option (list token) :=
  match fuel with
  | O => None
  | S f => match ld_next U l with
           | (Gave (Some t), l') => option_map (cons t) (nexts f l')
           | (Gave None, _) => Some []
           | (Raised _, _) => None
           end
  end.
Definition lexes (text : str) (want : list token) (names : str) : bool :=
  match ld_tokenize U (lexer_init text) with
  | (None, l) => tokens_eqb want (lx_toks l) && str_eqb names (token_string (map type_str (lx_toks l)))
  | _ => false
  end &&
  match nexts (List.length text + 2) (lexer_init text) with
  | Some l => tokens_eqb want (lx_toks (lexer_init text) ++ l)
  | None => false
  end.
Definition lex_fails (text : str) (pos : Z) (tok : option token) : bool :=
  match ld_tokenize U (lexer_init text) with
  | (Some (RSyn e), _) =>
      (le_pos e =? pos) && match le_tok e, tok with Some a, Some b => token_eqb a b | None, None => true | _, _ => false end
  | _ => false
  end.
(** test_lexing.py, test_basic_functions: after [n] calls of next(). *)
Fixpoint steps (n : nat) (l : lexer) : lexer := match n with O => l | S n => steps n (snd (ld_next U l)) end.
Definition gives (text : str) (n : nat) (want : option token) : bool :=
  match fst (ld_next U (steps (pred n) (lexer_init text))), want with
  | Gave (Some a), Some b => token_eqb a b
  | Gave None, None => true
  | _, _ => false
  end.
Definition current (text : str) (n : nat) (want : token) : bool :=
  match rev (lx_toks (steps n (lexer_init text))) with t :: _ => token_eqb t want | [] => false end.
Definition so_far (text : str) (n : nat) (want : list token) : bool := tokens_eqb want (lx_toks (steps n (lexer_init text))).
Definition names_so_far (text : str) (n : nat) (want : str) : bool :=
  str_eqb want (token_string (map type_str (lx_toks (steps n (lexer_init text))))).
(** test_parsing.py; node classes are compared too, which == does not do. *)
Definition class_eqb (a b : nclass) : bool :=
  match a, b with
  | CSet (Some x), CSet (Some y) => token_eqb x y
  | CSet None, CSet None => true
  | _, _ => class_val a =? class_val b
  end.
Fixpoint classes_eqb (a b : ast) {struct a} : bool :=
  let 'Node ca _ _ _ ka := a in
  let 'Node cb _ _ _ kb := b in
  class_eqb ca cb &&
  (fix go (l m : list ast) : bool :=
     match l, m with [], [] => true | x :: l', y :: m' => classes_eqb x y && go l' m' | _, _ => false end) ka kb.
Definition parses (text : str) (want : ast) : bool :=
  match parse_text U text (-1) with Ok (a, _) => ast_eqb want a && classes_eqb want a | Err _ => false end.
Definition parse_fails (text : str) (tok : token) (pos : Z) (rule : str) : bool :=
  match lex_text U text with
  | Ok ts => match d_parse U ts (-1) with
             | DSyn e => (pe_pos e =? pos) && token_eqb tok (pe_tok e) && str_eqb rule (pe_rule e)
             | _ => false
             end
  | Err _ => false
  end.
(** test_semantics.py; check() raises at CRIT only. *)
Definition check_eqb (a b : check_name) : bool :=
  match a, b with
  | NumCheck, NumCheck | EqCheck, EqCheck | InCheck, InCheck | SubsetCheck, SubsetCheck | AttCheck, AttCheck => true
  | _, _ => false
  end.
Definition result_eqb (a b : tc_result) : bool :=
  match a, b with ResNone, ResNone | ResPass, ResPass | ResWarn, ResWarn | ResError, ResError => true | _, _ => false end.
Definition checks (text : str) (errors warnings : nat) (names : list check_name) (want : tc_result) : bool :=
  match parse_text U text (-1) with
  | Ok (a, _) =>
      match check U (checker_new a) 4 with
      | (c, Returned l) =>
          result_eqb want (get_result c) && (List.length (get_errors c) =? errors)%nat && (List.length (get_warnings c) =? warnings)%nat &&
          forallb (fun i => existsb (check_eqb (is_check i)) names) l
      | _ => false
      end
  | Err _ => false
  end.
Definition passes (text : str) : bool := checks text 0 0 [] ResPass.
(** test_ast.py *)
Fixpoint same_decoded (a : ast) (g : graph) (id : Z) {struct a} : bool :=
  let 'Node _ t _ _ kids := a in
  match gassoc id g with
  | None => false
  | Some n =>
      token_eqb t (g_tok n) &&
      (fix go (l : list ast) (m : list Z) : bool :=
         match l, m with [], [] => true | x :: l', y :: m' => same_decoded x g y && go l' m' | _, _ => false end) kids (g_kids n)
  end.
Definition round_trips (text : str) : bool :=
  match parse_text U text (-1) with
  | Ok (a, last) =>
      forallb (fun b64 => match encode a b64 with
                          | Ok b => match snd (decode U b b64 last) with Ok (g, root) => same_decoded a g root | Err _ => false end
                          | Err _ => false
                          end) [false; true]
  | Err _ => false
  end.

(** hgpl/test/test_lexing.py 66 *)
Example lexing_test_basic_functions : all_true [
  current (lit "user.age >= 18") 0 (Tok START 0 TNone);
  so_far (lit "user.age >= 18") 0 [(Tok START 0 TNone)];
  names_so_far (lit "user.age >= 18") 0 (lit "START");
  gives (lit "user.age >= 18") 1 (Some (Tok USR_ATT 0 (TStr (lit "age"))));
  current (lit "user.age >= 18") 1 (Tok USR_ATT 0 (TStr (lit "age")));
  so_far (lit "user.age >= 18") 1 [(Tok START 0 TNone); (Tok USR_ATT 0 (TStr (lit "age")))];
  names_so_far (lit "user.age >= 18") 1 (lit "START USR_ATT");
  gives (lit "user.age >= 18") 2 (Some (Tok OP 9 (TStr (lit ">="))));
  current (lit "user.age >= 18") 2 (Tok OP 9 (TStr (lit ">=")));
  so_far (lit "user.age >= 18") 2 [(Tok START 0 TNone); (Tok USR_ATT 0 (TStr (lit "age"))); (Tok OP 9 (TStr (lit ">=")))];
  names_so_far (lit "user.age >= 18") 2 (lit "START USR_ATT OP");
  gives (lit "user.age >= 18") 3 (Some (Tok INT 12 (TInt 18)));
  current (lit "user.age >= 18") 3 (Tok INT 12 (TInt 18));
  so_far (lit "user.age >= 18") 3 [(Tok START 0 TNone); (Tok USR_ATT 0 (TStr (lit "age"))); (Tok OP 9 (TStr (lit ">="))); (Tok INT 12 (TInt 18))];
  names_so_far (lit "user.age >= 18") 3 (lit "START USR_ATT OP INT");
  gives (lit "user.age >= 18") 4 (Some (Tok END 14 TNone));
  current (lit "user.age >= 18") 4 (Tok END 14 TNone);
  so_far (lit "user.age >= 18") 4 [(Tok START 0 TNone); (Tok USR_ATT 0 (TStr (lit "age"))); (Tok OP 9 (TStr (lit ">="))); (Tok INT 12 (TInt 18)); (Tok END 14 TNone)];
  names_so_far (lit "user.age >= 18") 4 (lit "START USR_ATT OP INT END");
  gives (lit "user.age >= 18") 5 None;
  current (lit "user.age >= 18") 5 (Tok END 14 TNone);
  so_far (lit "user.age >= 18") 5 [(Tok START 0 TNone); (Tok USR_ATT 0 (TStr (lit "age"))); (Tok OP 9 (TStr (lit ">="))); (Tok INT 12 (TInt 18)); (Tok END 14 TNone)];
  names_so_far (lit "user.age >= 18") 5 (lit "START USR_ATT OP INT END");
  gives (lit "user.age >= 18") 6 None;
  current (lit "user.age >= 18") 6 (Tok END 14 TNone);
  so_far (lit "user.age >= 18") 6 [(Tok START 0 TNone); (Tok USR_ATT 0 (TStr (lit "age"))); (Tok OP 9 (TStr (lit ">="))); (Tok INT 12 (TInt 18)); (Tok END 14 TNone)];
  names_so_far (lit "user.age >= 18") 6 (lit "START USR_ATT OP INT END")].
Proof. vm_compute. reflexivity. Qed.
(** hgpl/test/test_lexing.py 118 *)
Example lexing_test_float_errors : all_true [
  lex_fails (lit "123.d23") 4 (Some (Tok FLOAT 0 TNone));
  lex_fails (lit "123.-89") 4 (Some (Tok FLOAT 0 TNone));
  lex_fails (lit "00987.(234)") 6 (Some (Tok FLOAT 0 TNone));
  lex_fails (lit "123.456.789") 7 (Some (Tok FLOAT 0 TNone))].
Proof. vm_compute. reflexivity. Qed.
(** hgpl/test/test_lexing.py 144 *)
Example lexing_test_int_errors : all_true [
  lex_fails (lit "123abc") 3 (Some (Tok UNK_ID 3 (TStr (lit "abc"))));
  lex_fails (lit "123+123") 3 None;
  lex_fails (lit "098_767") 3 None].
Proof. vm_compute. reflexivity. Qed.
(** hgpl/test/test_lexing.py 164 *)
Example lexing_test_string_errors : all_true [
  lex_fails (lit """Hello World!") 0 (Some (Tok STRING 0 TNone));
  lex_fails (lit """My name is ""Dan"".""") 13 (Some (Tok UNK_ID 13 (TStr (lit "Dan"))));
  lex_fails [34; 84; 104; 101; 32; 102; 111; 108; 108; 111; 119; 105; 110; 103; 32; 105; 115; 32; 105; 110; 118; 97; 108; 105; 100; 58; 32; 31; 34]%N 27 (Some (Tok STRING 0 TNone));
  lex_fails [34; 84; 104; 101; 32; 102; 111; 108; 108; 111; 119; 105; 110; 103; 32; 105; 115; 32; 105; 110; 118; 97; 108; 105; 100; 58; 32; 127; 34]%N 27 (Some (Tok STRING 0 TNone));
  lex_fails (lit """You can not put a "" in quotes""") 24 (Some (Tok UNK_ID 24 (TStr (lit "quotes"))))].
Proof. vm_compute. reflexivity. Qed.
(** hgpl/test/test_lexing.py 196 *)
Example lexing_test_not_eq_errors : all_true [
  lex_fails (lit "5 ! = 10") 3 (Some (Tok OP 2 (TStr (lit "!="))));
  lex_fails (lit "5 !eq 10") 3 (Some (Tok OP 2 (TStr (lit "!="))));
  lex_fails (lit "!(5 = 10)") 1 (Some (Tok OP 0 (TStr (lit "!="))));
  lex_fails (lit "!5=10") 1 (Some (Tok OP 0 (TStr (lit "!="))))].
Proof. vm_compute. reflexivity. Qed.
(** hgpl/test/test_lexing.py 222 *)
Example lexing_test_att_errors : all_true [
  lex_fails (lit "myatt.age >= 18") 0 (Some (Tok UNK_ATT 0 (TStr (lit "myatt"))));
  lex_fails (lit "admin.age = Users.age") 12 (Some (Tok UNK_ATT 12 (TStr (lit "users"))));
  lex_fails (lit "_uSeR.age >= 18") 0 None;
  lex_fails (lit "catage >= 3") 0 (Some (Tok UNK_ID 0 (TStr (lit "catage"))));
  lex_fails (lit "user.-123 = 123") 5 (Some (Tok UNK_ATT 0 (TStr (lit "user"))));
  lex_fails (lit "Admin.+age >= 18") 6 (Some (Tok UNK_ATT 0 (TStr (lit "admin"))));
  lex_fails (lit "coNNect.(age) >= 18") 8 (Some (Tok UNK_ATT 0 (TStr (lit "connect"))));
  lex_fails (lit "env.""age"" >= 18") 4 (Some (Tok UNK_ATT 0 (TStr (lit "env"))))].
Proof. vm_compute. reflexivity. Qed.
(** hgpl/test/test_lexing.py 272 *)
Example lexing_test_id_errors : all_true [
  lex_fails (lit "hello_world = ""Hello World!""") 0 (Some (Tok UNK_ID 0 (TStr (lit "hello_world"))));
  lex_fails (lit "5 NOR 6") 2 (Some (Tok UNK_ID 2 (TStr (lit "NOR"))));
  lex_fails (lit "dAniEl wAs hERe") 0 (Some (Tok UNK_ID 0 (TStr (lit "dAniEl"))));
  lex_fails (lit "myageis30 = 30") 0 (Some (Tok UNK_ID 0 (TStr (lit "myageis30"))))].
Proof. vm_compute. reflexivity. Qed.
(** hgpl/test/test_lexing.py 298 *)
Example lexing_test_unexpected_char_errors : all_true [
  lex_fails (lit "user.name = 'Daniel Servos'") 12 None;
  lex_fails (lit "user.age += 10") 9 None;
  lex_fails (lit "[1, 2, 3]") 0 None;
  lex_fails (lit "--user.age") 0 None].
Proof. vm_compute. reflexivity. Qed.
(** hgpl/test/test_lexing.py 340 *)
Example lexing_test_empty_policies : all_true [
  lexes (lit "") [(Tok START 0 TNone); (Tok END 0 TNone)] (lit "START END");
  lexes (lit " ") [(Tok START 0 TNone); (Tok END 1 TNone)] (lit "START END");
  lexes (lit "          ") [(Tok START 0 TNone); (Tok END 10 TNone)] (lit "START END")].
Proof. vm_compute. reflexivity. Qed.
(** hgpl/test/test_lexing.py 352 *)
Example lexing_test_ops : all_true [
  lexes (lit "subset>in<IN=>=<=!=SUBSET") [(Tok START 0 TNone); (Tok OP 0 (TStr (lit "SUBSET"))); (Tok OP 6 (TStr (lit ">"))); (Tok OP 7 (TStr (lit "IN"))); (Tok OP 9 (TStr (lit "<"))); (Tok OP 10 (TStr (lit "IN"))); (Tok OP 12 (TStr (lit "="))); (Tok OP 13 (TStr (lit ">="))); (Tok OP 15 (TStr (lit "<="))); (Tok OP 17 (TStr (lit "!="))); (Tok OP 19 (TStr (lit "SUBSET"))); (Tok END 25 TNone)] (lit "START OP OP OP OP OP OP OP OP OP OP END")].
Proof. vm_compute. reflexivity. Qed.
(** hgpl/test/test_lexing.py 361 *)
Example lexing_test_bool_ops_and_null : all_true [
  lexes (lit "NOT AND OR NULL not and or null Not And Or Null") [(Tok START 0 TNone); (Tok NOT_OP 0 (TStr (lit "NOT"))); (Tok BOOL_OP 4 (TStr (lit "AND"))); (Tok BOOL_OP 8 (TStr (lit "OR"))); (Tok NULL 11 (TStr (lit "NULL"))); (Tok NOT_OP 16 (TStr (lit "NOT"))); (Tok BOOL_OP 20 (TStr (lit "AND"))); (Tok BOOL_OP 24 (TStr (lit "OR"))); (Tok NULL 27 (TStr (lit "NULL"))); (Tok NOT_OP 32 (TStr (lit "NOT"))); (Tok BOOL_OP 36 (TStr (lit "AND"))); (Tok BOOL_OP 40 (TStr (lit "OR"))); (Tok NULL 43 (TStr (lit "NULL"))); (Tok END 47 TNone)] (lit "START NOT_OP BOOL_OP BOOL_OP NULL NOT_OP BOOL_OP BOOL_OP NULL NOT_OP BOOL_OP BOOL_OP NULL END")].
Proof. vm_compute. reflexivity. Qed.
(** hgpl/test/test_lexing.py 373 *)
Example lexing_test_bool_vals : all_true [
  lexes (lit "TRUE FALSE UNDEF false true undef fAlSe True uNdeF") [(Tok START 0 TNone); (Tok BOOL 0 (TStr (lit "TRUE"))); (Tok BOOL 5 (TStr (lit "FALSE"))); (Tok BOOL 11 (TStr (lit "UNDEF"))); (Tok BOOL 17 (TStr (lit "FALSE"))); (Tok BOOL 23 (TStr (lit "TRUE"))); (Tok BOOL 28 (TStr (lit "UNDEF"))); (Tok BOOL 34 (TStr (lit "FALSE"))); (Tok BOOL 40 (TStr (lit "TRUE"))); (Tok BOOL 45 (TStr (lit "UNDEF"))); (Tok END 50 TNone)] (lit "START BOOL BOOL BOOL BOOL BOOL BOOL BOOL BOOL BOOL END")].
Proof. vm_compute. reflexivity. Qed.
(** hgpl/test/test_lexing.py 383 *)
Example lexing_test_int_vals : all_true [
  lexes (lit "1 2 3 4 5 6 7 8 9 0 -1 -2 -3 -4 -5 -6 -7 -8 -9 -0 12345 -567890 1234567890 0987654321 -0001234 0001234 123-324") [(Tok START 0 TNone); (Tok INT 0 (TInt 1)); (Tok INT 2 (TInt 2)); (Tok INT 4 (TInt 3)); (Tok INT 6 (TInt 4)); (Tok INT 8 (TInt 5)); (Tok INT 10 (TInt 6)); (Tok INT 12 (TInt 7)); (Tok INT 14 (TInt 8)); (Tok INT 16 (TInt 9)); (Tok INT 18 (TInt 0)); (Tok INT 20 (TInt (-1))); (Tok INT 23 (TInt (-2))); (Tok INT 26 (TInt (-3))); (Tok INT 29 (TInt (-4))); (Tok INT 32 (TInt (-5))); (Tok INT 35 (TInt (-6))); (Tok INT 38 (TInt (-7))); (Tok INT 41 (TInt (-8))); (Tok INT 44 (TInt (-9))); (Tok INT 47 (TInt 0)); (Tok INT 50 (TInt 12345)); (Tok INT 56 (TInt (-567890))); (Tok INT 64 (TInt 1234567890)); (Tok INT 75 (TInt 987654321)); (Tok INT 86 (TInt (-1234))); (Tok INT 95 (TInt 1234)); (Tok INT 103 (TInt 123)); (Tok INT 106 (TInt (-324))); (Tok END 110 TNone)] (lit "START INT INT INT INT INT INT INT INT INT INT INT INT INT INT INT INT INT INT INT INT INT INT INT INT INT INT INT INT END")].
Proof. vm_compute. reflexivity. Qed.
(** hgpl/test/test_lexing.py 401 *)
Example lexing_test_float_vals : all_true [
  lexes (lit "1.1 2.2 3.3 4.4 5.5 6.6 7.7 8.8 9.9 0.1 -1.9 -2.8 -3.7 -4.6 -5.5 -6.4 -7.3 -8.2 -9.1 -0.1 0.0 -0.0 134.456 -789.987 1234567890.0987654321 -0987654321.1234567890 00100.00100 -00200.00200 0.123 000.123 123.0 123.000") [(Tok START 0 TNone); (Tok FLOAT 0 (TFloat (S754_finite false 4953959590107546 (-52)))); (Tok FLOAT 4 (TFloat (S754_finite false 4953959590107546 (-51)))); (Tok FLOAT 8 (TFloat (S754_finite false 7430939385161318 (-51)))); (Tok FLOAT 12 (TFloat (S754_finite false 4953959590107546 (-50)))); (Tok FLOAT 16 (TFloat (S754_finite false 6192449487634432 (-50)))); (Tok FLOAT 20 (TFloat (S754_finite false 7430939385161318 (-50)))); (Tok FLOAT 24 (TFloat (S754_finite false 8669429282688205 (-50)))); (Tok FLOAT 28 (TFloat (S754_finite false 4953959590107546 (-49)))); (Tok FLOAT 32 (TFloat (S754_finite false 5573204538870989 (-49)))); (Tok FLOAT 36 (TFloat (S754_finite false 7205759403792794 (-56)))); (Tok FLOAT 40 (TFloat (S754_finite true 8556839292003942 (-52)))); (Tok FLOAT 45 (TFloat (S754_finite true 6305039478318694 (-51)))); (Tok FLOAT 50 (TFloat (S754_finite true 8331659310635418 (-51)))); (Tok FLOAT 55 (TFloat (S754_finite true 5179139571476070 (-50)))); (Tok FLOAT 60 (TFloat (S754_finite true 6192449487634432 (-50)))); (Tok FLOAT 65 (TFloat (S754_finite true 7205759403792794 (-50)))); (Tok FLOAT 70 (TFloat (S754_finite true 8219069319951155 (-50)))); (Tok FLOAT 75 (TFloat (S754_finite true 4616189618054758 (-49)))); (Tok FLOAT 80 (TFloat (S754_finite true 5122844576133939 (-49)))); (Tok FLOAT 85 (TFloat (S754_finite true 7205759403792794 (-56)))); (Tok FLOAT 90 (TInt 0)); (Tok FLOAT 94 (TInt 0)); (Tok FLOAT 99 (TFloat (S754_finite false 4730749933575995 (-45)))); (Tok FLOAT 107 (TFloat (S754_finite true 6948799138335031 (-43)))); (Tok FLOAT 116 (TFloat (S754_finite false 5178153039712812 (-22)))); (Tok FLOAT 138 (TFloat (S754_finite true 8285044939410799 (-23)))); (Tok FLOAT 161 (TFloat (S754_finite false 7036944786510578 (-46)))); (Tok FLOAT 173 (TFloat (S754_finite true 7036944786510578 (-45)))); (Tok FLOAT 186 (TFloat (S754_finite false 8863084066665136 (-56)))); (Tok FLOAT 192 (TFloat (S754_finite false 8863084066665136 (-56)))); (Tok FLOAT 200 (TFloat (S754_finite false 8655355533852672 (-46)))); (Tok FLOAT 206 (TFloat (S754_finite false 8655355533852672 (-46)))); (Tok END 213 TNone)] (lit "START FLOAT FLOAT FLOAT FLOAT FLOAT FLOAT FLOAT FLOAT FLOAT FLOAT FLOAT FLOAT FLOAT FLOAT FLOAT FLOAT FLOAT FLOAT FLOAT FLOAT FLOAT FLOAT FLOAT FLOAT FLOAT FLOAT FLOAT FLOAT FLOAT FLOAT FLOAT FLOAT END")].
Proof. vm_compute. reflexivity. Qed.
(** hgpl/test/test_lexing.py 423 *)
Example lexing_test_string_vals : all_true [
  lexes (lit """""""a""""A""""z""""Z"""" """"!""""#$%&'()*+'-./""""!01ZXY234$567abc89!"""":;<=>?@[\]^_`{|}~""""abcdefghijklmnopqrstuvwxyz ABCDEFGHIJKLMNOPQRSTUVWXYZ 0123456789 ~!@#$%^&*()_+ =-`"" ""Hello world!""") [(Tok START 0 TNone); (Tok STRING 0 (TStr (lit ""))); (Tok STRING 2 (TStr (lit "a"))); (Tok STRING 5 (TStr (lit "A"))); (Tok STRING 8 (TStr (lit "z"))); (Tok STRING 11 (TStr (lit "Z"))); (Tok STRING 14 (TStr (lit " "))); (Tok STRING 17 (TStr (lit "!"))); (Tok STRING 20 (TStr (lit "#$%&'()*+'-./"))); (Tok STRING 35 (TStr (lit "!01ZXY234$567abc89!"))); (Tok STRING 56 (TStr (lit ":;<=>?@[\]^_`{|}~"))); (Tok STRING 75 (TStr (lit "abcdefghijklmnopqrstuvwxyz ABCDEFGHIJKLMNOPQRSTUVWXYZ 0123456789 ~!@#$%^&*()_+ =-`"))); (Tok STRING 160 (TStr (lit "Hello world!"))); (Tok END 174 TNone)] (lit "START STRING STRING STRING STRING STRING STRING STRING STRING STRING STRING STRING STRING END")].
Proof. vm_compute. reflexivity. Qed.
(** hgpl/test/test_lexing.py 437 *)
Example lexing_test_atts : all_true [
  lexes (lit "user.a user.Z user.1 user.0 user.9 user._ env.b env.X env.2 env.0 env.9 env._ object.c object.Y object.3 object.0 object.9 object._ admin.d admin.W admin.4 admin.0 admin.9 admin._ connect.e connect.V connect.5 connect.0 connect.9 connect._ user.0123456789abcdefghijklmnopqrstuvwxyzABCDEFGHIJKLMNOPQRSTUVWXYZ_ env._0123456789abcdefghijklmnopqrstuvwxyzABCDEFGHIJKLMNOPQRSTUVWXYZ object.abcdefghijklmnopqrstuvwxyzABCDEFGHIJKLMNOPQRSTUVWXYZ_0123456789 admin.ABCDEFGHIJKLMNOPQRSTUVWXYZ_0123456789abcdefghijklmnopqrstuvwxyz") [(Tok START 0 TNone); (Tok USR_ATT 0 (TStr (lit "a"))); (Tok USR_ATT 7 (TStr (lit "Z"))); (Tok USR_ATT 14 (TStr (lit "1"))); (Tok USR_ATT 21 (TStr (lit "0"))); (Tok USR_ATT 28 (TStr (lit "9"))); (Tok USR_ATT 35 (TStr (lit "_"))); (Tok ENV_ATT 42 (TStr (lit "b"))); (Tok ENV_ATT 48 (TStr (lit "X"))); (Tok ENV_ATT 54 (TStr (lit "2"))); (Tok ENV_ATT 60 (TStr (lit "0"))); (Tok ENV_ATT 66 (TStr (lit "9"))); (Tok ENV_ATT 72 (TStr (lit "_"))); (Tok OBJ_ATT 78 (TStr (lit "c"))); (Tok OBJ_ATT 87 (TStr (lit "Y"))); (Tok OBJ_ATT 96 (TStr (lit "3"))); (Tok OBJ_ATT 105 (TStr (lit "0"))); (Tok OBJ_ATT 114 (TStr (lit "9"))); (Tok OBJ_ATT 123 (TStr (lit "_"))); (Tok ADM_ATT 132 (TStr (lit "d"))); (Tok ADM_ATT 140 (TStr (lit "W"))); (Tok ADM_ATT 148 (TStr (lit "4"))); (Tok ADM_ATT 156 (TStr (lit "0"))); (Tok ADM_ATT 164 (TStr (lit "9"))); (Tok ADM_ATT 172 (TStr (lit "_"))); (Tok CON_ATT 180 (TStr (lit "e"))); (Tok CON_ATT 190 (TStr (lit "V"))); (Tok CON_ATT 200 (TStr (lit "5"))); (Tok CON_ATT 210 (TStr (lit "0"))); (Tok CON_ATT 220 (TStr (lit "9"))); (Tok CON_ATT 230 (TStr (lit "_"))); (Tok USR_ATT 240 (TStr (lit "0123456789abcdefghijklmnopqrstuvwxyzABCDEFGHIJKLMNOPQRSTUVWXYZ_"))); (Tok ENV_ATT 309 (TStr (lit "_0123456789abcdefghijklmnopqrstuvwxyzABCDEFGHIJKLMNOPQRSTUVWXYZ"))); (Tok OBJ_ATT 377 (TStr (lit "abcdefghijklmnopqrstuvwxyzABCDEFGHIJKLMNOPQRSTUVWXYZ_0123456789"))); (Tok ADM_ATT 448 (TStr (lit "ABCDEFGHIJKLMNOPQRSTUVWXYZ_0123456789abcdefghijklmnopqrstuvwxyz"))); (Tok END 517 TNone)] (lit "START USR_ATT USR_ATT USR_ATT USR_ATT USR_ATT USR_ATT ENV_ATT ENV_ATT ENV_ATT ENV_ATT ENV_ATT ENV_ATT OBJ_ATT OBJ_ATT OBJ_ATT OBJ_ATT OBJ_ATT OBJ_ATT ADM_ATT ADM_ATT ADM_ATT ADM_ATT ADM_ATT ADM_ATT CON_ATT CON_ATT CON_ATT CON_ATT CON_ATT CON_ATT USR_ATT ENV_ATT OBJ_ATT ADM_ATT END")].
Proof. vm_compute. reflexivity. Qed.
(** hgpl/test/test_lexing.py 473 *)
Example lexing_test_parn_and_set : all_true [
  lexes (lit "{},()}),,({") [(Tok START 0 TNone); (Tok LSET 0 TNone); (Tok RSET 1 TNone); (Tok COMMA 2 TNone); (Tok LPARN 3 TNone); (Tok RPARN 4 TNone); (Tok RSET 5 TNone); (Tok RPARN 6 TNone); (Tok COMMA 7 TNone); (Tok COMMA 8 TNone); (Tok LPARN 9 TNone); (Tok LSET 10 TNone); (Tok END 11 TNone)] (lit "START LSET RSET COMMA LPARN RPARN RSET RPARN COMMA COMMA LPARN LSET END")].
Proof. vm_compute. reflexivity. Qed.
(** hgpl/test/test_lexing.py 483 *)
Example lexing_test_mixed_tokens : all_true [
  lexes (lit """user.cat AND env._dog <= SUBSET {},,, () TRUE FALSE UNDEF NULL NOT IN >= != = < > AND OR connect.123 admin.XYZ -123.3425"" USER.SUBSET ENV.IN CONNECT.AND ADMIN.OR OBJECT.NOT uSer.NULL eNv.TRUE coNNect.FALSE oBJect.UNDEF user._AND_OR_NOT_ obJEct._FALSE_TRUE_NULL ""AND"" ""OR"" ""NULL"" "">"" ""="" ""NOT"" ""IN"" ""123"" ""123.213"" ""-123.123"" ""-123"" user.user user.admin user.connect user.env user.object admin._user_ admin._con admin.env_") [(Tok START 0 TNone); (Tok STRING 0 (TStr (lit "user.cat AND env._dog <= SUBSET {},,, () TRUE FALSE UNDEF NULL NOT IN >= != = < > AND OR connect.123 admin.XYZ -123.3425"))); (Tok USR_ATT 123 (TStr (lit "SUBSET"))); (Tok ENV_ATT 135 (TStr (lit "IN"))); (Tok CON_ATT 142 (TStr (lit "AND"))); (Tok ADM_ATT 154 (TStr (lit "OR"))); (Tok OBJ_ATT 163 (TStr (lit "NOT"))); (Tok USR_ATT 174 (TStr (lit "NULL"))); (Tok ENV_ATT 184 (TStr (lit "TRUE"))); (Tok CON_ATT 193 (TStr (lit "FALSE"))); (Tok OBJ_ATT 207 (TStr (lit "UNDEF"))); (Tok USR_ATT 220 (TStr (lit "_AND_OR_NOT_"))); (Tok OBJ_ATT 238 (TStr (lit "_FALSE_TRUE_NULL"))); (Tok STRING 262 (TStr (lit "AND"))); (Tok STRING 268 (TStr (lit "OR"))); (Tok STRING 273 (TStr (lit "NULL"))); (Tok STRING 280 (TStr (lit ">"))); (Tok STRING 284 (TStr (lit "="))); (Tok STRING 288 (TStr (lit "NOT"))); (Tok STRING 294 (TStr (lit "IN"))); (Tok STRING 299 (TStr (lit "123"))); (Tok STRING 305 (TStr (lit "123.213"))); (Tok STRING 315 (TStr (lit "-123.123"))); (Tok STRING 326 (TStr (lit "-123"))); (Tok USR_ATT 333 (TStr (lit "user"))); (Tok USR_ATT 343 (TStr (lit "admin"))); (Tok USR_ATT 354 (TStr (lit "connect"))); (Tok USR_ATT 367 (TStr (lit "env"))); (Tok USR_ATT 376 (TStr (lit "object"))); (Tok ADM_ATT 388 (TStr (lit "_user_"))); (Tok ADM_ATT 401 (TStr (lit "_con"))); (Tok ADM_ATT 412 (TStr (lit "env_"))); (Tok END 422 TNone)] (lit "START STRING USR_ATT ENV_ATT CON_ATT ADM_ATT OBJ_ATT USR_ATT ENV_ATT CON_ATT OBJ_ATT USR_ATT OBJ_ATT STRING STRING STRING STRING STRING STRING STRING STRING STRING STRING STRING USR_ATT USR_ATT USR_ATT USR_ATT USR_ATT ADM_ATT ADM_ATT ADM_ATT END")].
Proof. vm_compute. reflexivity. Qed.
(** hgpl/test/test_lexing.py 513 *)
Example lexing_test_hgabac_paper_ex_a : all_true [
  lexes (lit "user.id IN {5, 72, 4, 6, 4} OR user.id = object.owner") [(Tok START 0 TNone); (Tok USR_ATT 0 (TStr (lit "id"))); (Tok OP 8 (TStr (lit "IN"))); (Tok LSET 11 TNone); (Tok INT 12 (TInt 5)); (Tok COMMA 13 TNone); (Tok INT 15 (TInt 72)); (Tok COMMA 17 TNone); (Tok INT 19 (TInt 4)); (Tok COMMA 20 TNone); (Tok INT 22 (TInt 6)); (Tok COMMA 23 TNone); (Tok INT 25 (TInt 4)); (Tok RSET 26 TNone); (Tok BOOL_OP 28 (TStr (lit "OR"))); (Tok USR_ATT 31 (TStr (lit "id"))); (Tok OP 39 (TStr (lit "="))); (Tok OBJ_ATT 41 (TStr (lit "owner"))); (Tok END 53 TNone)] (lit "START USR_ATT OP LSET INT COMMA INT COMMA INT COMMA INT COMMA INT RSET BOOL_OP USR_ATT OP OBJ_ATT END")].
Proof. vm_compute. reflexivity. Qed.
(** hgpl/test/test_lexing.py 526 *)
Example lexing_test_hgabac_paper_ex_b : all_true [
  lexes (lit "object.required_perms SUBSET user.perms AND user.age >= 18") [(Tok START 0 TNone); (Tok OBJ_ATT 0 (TStr (lit "required_perms"))); (Tok OP 22 (TStr (lit "SUBSET"))); (Tok USR_ATT 29 (TStr (lit "perms"))); (Tok BOOL_OP 40 (TStr (lit "AND"))); (Tok USR_ATT 44 (TStr (lit "age"))); (Tok OP 53 (TStr (lit ">="))); (Tok INT 56 (TInt 18)); (Tok END 58 TNone)] (lit "START OBJ_ATT OP USR_ATT BOOL_OP USR_ATT OP INT END")].
Proof. vm_compute. reflexivity. Qed.
(** hgpl/test/test_lexing.py 535 *)
Example lexing_test_hgabac_paper_ex_c : all_true [
  lexes (lit "user.admin OR (user.role = ""doctor"" AND user.id != object.patient)") [(Tok START 0 TNone); (Tok USR_ATT 0 (TStr (lit "admin"))); (Tok BOOL_OP 11 (TStr (lit "OR"))); (Tok LPARN 14 TNone); (Tok USR_ATT 15 (TStr (lit "role"))); (Tok OP 25 (TStr (lit "="))); (Tok STRING 27 (TStr (lit "doctor"))); (Tok BOOL_OP 36 (TStr (lit "AND"))); (Tok USR_ATT 40 (TStr (lit "id"))); (Tok OP 48 (TStr (lit "!="))); (Tok OBJ_ATT 51 (TStr (lit "patient"))); (Tok RPARN 65 TNone); (Tok END 66 TNone)] (lit "START USR_ATT BOOL_OP LPARN USR_ATT OP STRING BOOL_OP USR_ATT OP OBJ_ATT RPARN END")].
Proof. vm_compute. reflexivity. Qed.
(** hgpl/test/test_lexing.py 545 *)
Example lexing_test_hgabac_paper_case_1 : all_true [
  lexes (lit """undergrad"" IN user.user_type AND ((object.object_type = ""book"" AND NOT object.restricted) OR (object.object_type = ""course"" AND user.enrolled_in IN object.req_course)") [(Tok START 0 TNone); (Tok STRING 0 (TStr (lit "undergrad"))); (Tok OP 12 (TStr (lit "IN"))); (Tok USR_ATT 15 (TStr (lit "user_type"))); (Tok BOOL_OP 30 (TStr (lit "AND"))); (Tok LPARN 34 TNone); (Tok LPARN 35 TNone); (Tok OBJ_ATT 36 (TStr (lit "object_type"))); (Tok OP 55 (TStr (lit "="))); (Tok STRING 57 (TStr (lit "book"))); (Tok BOOL_OP 64 (TStr (lit "AND"))); (Tok NOT_OP 68 (TStr (lit "NOT"))); (Tok OBJ_ATT 72 (TStr (lit "restricted"))); (Tok RPARN 89 TNone); (Tok BOOL_OP 91 (TStr (lit "OR"))); (Tok LPARN 94 TNone); (Tok OBJ_ATT 95 (TStr (lit "object_type"))); (Tok OP 114 (TStr (lit "="))); (Tok STRING 116 (TStr (lit "course"))); (Tok BOOL_OP 125 (TStr (lit "AND"))); (Tok USR_ATT 129 (TStr (lit "enrolled_in"))); (Tok OP 146 (TStr (lit "IN"))); (Tok OBJ_ATT 149 (TStr (lit "req_course"))); (Tok RPARN 166 TNone); (Tok END 167 TNone)] (lit "START STRING OP USR_ATT BOOL_OP LPARN LPARN OBJ_ATT OP STRING BOOL_OP NOT_OP OBJ_ATT RPARN BOOL_OP LPARN OBJ_ATT OP STRING BOOL_OP USR_ATT OP OBJ_ATT RPARN END")].
Proof. vm_compute. reflexivity. Qed.
(** hgpl/test/test_lexing.py 564 *)
Example lexing_test_hgabac_paper_case_2 : all_true [
  lexes (lit """grad"" IN user.user_type AND (object.object_type = ""periodical"" OR (object.object_type =""course"" AND object.req_course IN user.teaching)") [(Tok START 0 TNone); (Tok STRING 0 (TStr (lit "grad"))); (Tok OP 7 (TStr (lit "IN"))); (Tok USR_ATT 10 (TStr (lit "user_type"))); (Tok BOOL_OP 25 (TStr (lit "AND"))); (Tok LPARN 29 TNone); (Tok OBJ_ATT 30 (TStr (lit "object_type"))); (Tok OP 49 (TStr (lit "="))); (Tok STRING 51 (TStr (lit "periodical"))); (Tok BOOL_OP 64 (TStr (lit "OR"))); (Tok LPARN 67 TNone); (Tok OBJ_ATT 68 (TStr (lit "object_type"))); (Tok OP 87 (TStr (lit "="))); (Tok STRING 88 (TStr (lit "course"))); (Tok BOOL_OP 97 (TStr (lit "AND"))); (Tok OBJ_ATT 101 (TStr (lit "req_course"))); (Tok OP 119 (TStr (lit "IN"))); (Tok USR_ATT 122 (TStr (lit "teaching"))); (Tok RPARN 135 TNone); (Tok END 136 TNone)] (lit "START STRING OP USR_ATT BOOL_OP LPARN OBJ_ATT OP STRING BOOL_OP LPARN OBJ_ATT OP STRING BOOL_OP OBJ_ATT OP USR_ATT RPARN END")].
Proof. vm_compute. reflexivity. Qed.
(** hgpl/test/test_lexing.py 581 *)
Example lexing_test_hgabac_paper_case_3 : all_true [
  lexes (lit """faculty"" IN user.user_type AND(object.object_type IN {""book"", ""periodical"", ""course""} OR (object.object_type = ""archive"" AND object.depart IN user.depart))") [(Tok START 0 TNone); (Tok STRING 0 (TStr (lit "faculty"))); (Tok OP 10 (TStr (lit "IN"))); (Tok USR_ATT 13 (TStr (lit "user_type"))); (Tok BOOL_OP 28 (TStr (lit "AND"))); (Tok LPARN 31 TNone); (Tok OBJ_ATT 32 (TStr (lit "object_type"))); (Tok OP 51 (TStr (lit "IN"))); (Tok LSET 54 TNone); (Tok STRING 55 (TStr (lit "book"))); (Tok COMMA 61 TNone); (Tok STRING 63 (TStr (lit "periodical"))); (Tok COMMA 75 TNone); (Tok STRING 77 (TStr (lit "course"))); (Tok RSET 85 TNone); (Tok BOOL_OP 87 (TStr (lit "OR"))); (Tok LPARN 90 TNone); (Tok OBJ_ATT 91 (TStr (lit "object_type"))); (Tok OP 110 (TStr (lit "="))); (Tok STRING 112 (TStr (lit "archive"))); (Tok BOOL_OP 122 (TStr (lit "AND"))); (Tok OBJ_ATT 126 (TStr (lit "depart"))); (Tok OP 140 (TStr (lit "IN"))); (Tok USR_ATT 143 (TStr (lit "depart"))); (Tok RPARN 154 TNone); (Tok RPARN 155 TNone); (Tok END 156 TNone)] (lit "START STRING OP USR_ATT BOOL_OP LPARN OBJ_ATT OP LSET STRING COMMA STRING COMMA STRING RSET BOOL_OP LPARN OBJ_ATT OP STRING BOOL_OP OBJ_ATT OP USR_ATT RPARN RPARN END")].
Proof. vm_compute. reflexivity. Qed.
(** hgpl/test/test_lexing.py 599 *)
Example lexing_test_hgabac_paper_case_4 : all_true [
  lexes (lit """staff"" IN user.user_type AND env.time_of_day_hour >= 8 AND env.time_of_day_hour <= 16 AND env.day_of_week IN {2, 3, 4, 5, 6}") [(Tok START 0 TNone); (Tok STRING 0 (TStr (lit "staff"))); (Tok OP 8 (TStr (lit "IN"))); (Tok USR_ATT 11 (TStr (lit "user_type"))); (Tok BOOL_OP 26 (TStr (lit "AND"))); (Tok ENV_ATT 30 (TStr (lit "time_of_day_hour"))); (Tok OP 51 (TStr (lit ">="))); (Tok INT 54 (TInt 8)); (Tok BOOL_OP 56 (TStr (lit "AND"))); (Tok ENV_ATT 60 (TStr (lit "time_of_day_hour"))); (Tok OP 81 (TStr (lit "<="))); (Tok INT 84 (TInt 16)); (Tok BOOL_OP 87 (TStr (lit "AND"))); (Tok ENV_ATT 91 (TStr (lit "day_of_week"))); (Tok OP 107 (TStr (lit "IN"))); (Tok LSET 110 TNone); (Tok INT 111 (TInt 2)); (Tok COMMA 112 TNone); (Tok INT 114 (TInt 3)); (Tok COMMA 115 TNone); (Tok INT 117 (TInt 4)); (Tok COMMA 118 TNone); (Tok INT 120 (TInt 5)); (Tok COMMA 121 TNone); (Tok INT 123 (TInt 6)); (Tok RSET 124 TNone); (Tok END 125 TNone)] (lit "START STRING OP USR_ATT BOOL_OP ENV_ATT OP INT BOOL_OP ENV_ATT OP INT BOOL_OP ENV_ATT OP LSET INT COMMA INT COMMA INT COMMA INT COMMA INT RSET END")].
Proof. vm_compute. reflexivity. Qed.
(** hgpl/test/test_lexing.py 617 *)
Example lexing_test_hgabac_paper_case_5 : all_true [
  lexes (lit """cs_course"" IN user.enrolled_in AND connect.ip_octet_1 = 192 AND connect.ip_octet_2 = 168 AND object.object_type = ""periodical""") [(Tok START 0 TNone); (Tok STRING 0 (TStr (lit "cs_course"))); (Tok OP 12 (TStr (lit "IN"))); (Tok USR_ATT 15 (TStr (lit "enrolled_in"))); (Tok BOOL_OP 32 (TStr (lit "AND"))); (Tok CON_ATT 36 (TStr (lit "ip_octet_1"))); (Tok OP 55 (TStr (lit "="))); (Tok INT 57 (TInt 192)); (Tok BOOL_OP 61 (TStr (lit "AND"))); (Tok CON_ATT 65 (TStr (lit "ip_octet_2"))); (Tok OP 84 (TStr (lit "="))); (Tok INT 86 (TInt 168)); (Tok BOOL_OP 90 (TStr (lit "AND"))); (Tok OBJ_ATT 94 (TStr (lit "object_type"))); (Tok OP 113 (TStr (lit "="))); (Tok STRING 115 (TStr (lit "periodical"))); (Tok END 127 TNone)] (lit "START STRING OP USR_ATT BOOL_OP CON_ATT OP INT BOOL_OP CON_ATT OP INT BOOL_OP OBJ_ATT OP STRING END")].
Proof. vm_compute. reflexivity. Qed.
(** hgpl/test/test_lexing.py 36 *)
Example token_test_eq : all_true [
  id (token_eqb (Tok STRING 123 (TStr (lit "ABC"))) (Tok STRING 123 (TStr (lit "ABC"))));
  negb (token_eqb (Tok STRING 123 (TStr (lit "ABC"))) (Tok STRING 123 (TStr (lit "ABC123"))));
  negb (token_eqb (Tok STRING 123 (TStr (lit "ABC"))) (Tok STRING 5 (TStr (lit "ABC"))));
  negb (token_eqb (Tok STRING 123 (TStr (lit "ABC"))) (Tok OP 123 (TStr (lit "ABC"))));
  negb (token_eqb (Tok STRING 123 (TStr (lit "ABC"))) (Tok OP 5 (TStr (lit "ABC123"))));
  id (token_eqb (Tok INT 456 (TInt 123)) (Tok INT 456 (TInt 123)));
  negb (token_eqb (Tok INT 456 (TInt 123)) (Tok STRING 123 (TStr (lit "ABC"))));
  negb (token_eqb (Tok INT 456 (TInt 123)) (Tok INT 456 (TInt 321)));
  negb (token_eqb (Tok INT 456 (TInt 123)) (Tok INT 786 (TInt 123)));
  negb (token_eqb (Tok INT 456 (TInt 123)) (Tok FLOAT 456 (TInt 123)))].
Proof. vm_compute. reflexivity. Qed.
(** hgpl/test/test_parsing.py 39 *)
Example parsing_test_set_errors : all_true [
  parse_fails (lit "{TRUE} = env.a") (Tok BOOL 1 (TStr (lit "TRUE"))) 1 (lit "atomic");
  parse_fails (lit "{1, FALSE} = env.b") (Tok BOOL 4 (TStr (lit "FALSE"))) 4 (lit "atomic");
  parse_fails (lit "{1, UNDEF, 3} = env.c") (Tok BOOL 4 (TStr (lit "UNDEF"))) 4 (lit "atomic");
  parse_fails (lit "{1, TRUE} = env.d") (Tok BOOL 4 (TStr (lit "TRUE"))) 4 (lit "atomic");
  parse_fails (lit "{AND} = env.e") (Tok BOOL_OP 1 (TStr (lit "AND"))) 1 (lit "atomic");
  parse_fails (lit "{5.5, OR} = env.f") (Tok BOOL_OP 6 (TStr (lit "OR"))) 6 (lit "atomic");
  parse_fails (lit "{NOT, -4.5} = env.g") (Tok NOT_OP 1 (TStr (lit "NOT"))) 1 (lit "atomic");
  parse_fails (lit "{=} = env.h") (Tok OP 1 (TStr (lit "="))) 1 (lit "atomic");
  parse_fails (lit "{1, IN} = env.i") (Tok OP 4 (TStr (lit "IN"))) 4 (lit "atomic");
  parse_fails (lit "{SUBSET, ""cat""} = env.j") (Tok OP 1 (TStr (lit "SUBSET"))) 1 (lit "atomic");
  parse_fails (lit "{1, >=, 2} = env.k") (Tok OP 4 (TStr (lit ">="))) 4 (lit "atomic");
  parse_fails (lit "{user.1} = env.l") (Tok USR_ATT 1 (TStr (lit "1"))) 1 (lit "atomic");
  parse_fails (lit "{1, env.1} = env.m") (Tok ENV_ATT 4 (TStr (lit "1"))) 4 (lit "atomic");
  parse_fails (lit "{object.1, 2} = env.n") (Tok OBJ_ATT 1 (TStr (lit "1"))) 1 (lit "atomic");
  parse_fails (lit "{1, admin.1, 2} = env.o") (Tok ADM_ATT 4 (TStr (lit "1"))) 4 (lit "atomic");
  parse_fails (lit "{,} = env.p") (Tok COMMA 1 TNone) 1 (lit "atomic");
  parse_fails (lit "{,,} = env.q") (Tok COMMA 1 TNone) 1 (lit "atomic");
  parse_fails (lit "{1,} = env.r") (Tok RSET 3 TNone) 3 (lit "atomic");
  parse_fails (lit "{,1} = env.s") (Tok COMMA 1 TNone) 1 (lit "atomic");
  parse_fails (lit "{1 1} = env.t") (Tok INT 3 (TInt 1)) 3 (lit "set");
  parse_fails (lit "{(1)} = env.u") (Tok LPARN 1 TNone) 1 (lit "atomic")].
Proof. vm_compute. reflexivity. Qed.
(** hgpl/test/test_parsing.py 84 *)
Example parsing_test_parn_errors : all_true [
  parse_fails (lit "(user.missing_parn_right") (Tok END 24 TNone) 24 (lit "exp");
  parse_fails (lit "user.missing_parn_left)") (Tok RPARN 22 TNone) 22 (lit "parse");
  parse_fails (lit "user.AND_parns (AND) admin.AND_parns") (Tok LPARN 15 TNone) 15 (lit "parse");
  parse_fails (lit "(env.mixmatch_parns_left() OR object.mixmatch_parns_left)") (Tok LPARN 24 TNone) 24 (lit "exp");
  parse_fails (lit "(env.mixmatch_parns_right OR ()object.mixmatch_parns_right)") (Tok RPARN 30 TNone) 30 (lit "exp");
  parse_fails (lit "()") (Tok RPARN 1 TNone) 1 (lit "exp");
  parse_fails (lit "env.empty_parns AND ()") (Tok RPARN 21 TNone) 21 (lit "exp");
  parse_fails (lit "NOT ()") (Tok RPARN 5 TNone) 5 (lit "exp");
  parse_fails (lit "(((TRUE AND FALSE) OR TRUE) AND UNDEF") (Tok END 37 TNone) 37 (lit "exp");
  parse_fails (lit "TRUE AND (FALSE OR (TRUE AND UNDEF)))") (Tok RPARN 36 TNone) 36 (lit "parse");
  parse_fails (lit "TRUE AND ((FALSE OR TRUE) AND UNDEF") (Tok END 35 TNone) 35 (lit "exp");
  parse_fails (lit "TRUE AND (FALSE OR (TRUE AND UNDEF)))") (Tok RPARN 36 TNone) 36 (lit "parse")].
Proof. vm_compute. reflexivity. Qed.
(** hgpl/test/test_parsing.py 111 *)
Example parsing_test_bool_op_errors : all_true [
  parse_fails (lit "TRUE = FALSE") (Tok OP 5 (TStr (lit "="))) 5 (lit "parse");
  parse_fails (lit "UNDEF >= TRUE") (Tok OP 6 (TStr (lit ">="))) 6 (lit "parse");
  parse_fails (lit "FALSE <= UNDEF") (Tok OP 6 (TStr (lit "<="))) 6 (lit "parse");
  parse_fails (lit "UNDEF > UNDEF") (Tok OP 6 (TStr (lit ">"))) 6 (lit "parse");
  parse_fails (lit "FALSE < FALSE") (Tok OP 6 (TStr (lit "<"))) 6 (lit "parse");
  parse_fails (lit "TRUE != TRUE") (Tok OP 5 (TStr (lit "!="))) 5 (lit "parse");
  parse_fails (lit "TRUE IN FALSE") (Tok OP 5 (TStr (lit "IN"))) 5 (lit "parse");
  parse_fails (lit "FALSE SUBSET TRUE") (Tok OP 6 (TStr (lit "SUBSET"))) 6 (lit "parse");
  parse_fails (lit "AND = OR") (Tok BOOL_OP 0 (TStr (lit "AND"))) 0 (lit "exp");
  parse_fails (lit "user.a >= OR") (Tok BOOL_OP 10 (TStr (lit "OR"))) 10 (lit "var");
  parse_fails (lit "AND <= user.b") (Tok BOOL_OP 0 (TStr (lit "AND"))) 0 (lit "exp");
  parse_fails (lit "NOT IN 5") (Tok OP 4 (TStr (lit "IN"))) 4 (lit "att_name");
  parse_fails (lit "8.8 IN NOT") (Tok NOT_OP 7 (TStr (lit "NOT"))) 7 (lit "var");
  parse_fails (lit """cat"" > FALSE") (Tok BOOL 8 (TStr (lit "FALSE"))) 8 (lit "var");
  parse_fails (lit "TRUE < ""dog""") (Tok OP 5 (TStr (lit "<"))) 5 (lit "parse");
  parse_fails (lit "NOT(TRUE) != env.a") (Tok OP 10 (TStr (lit "!="))) 10 (lit "parse");
  parse_fails (lit "env.b = NOT(FALSE)") (Tok NOT_OP 8 (TStr (lit "NOT"))) 8 (lit "var");
  parse_fails (lit "NOT(AND)") (Tok BOOL_OP 4 (TStr (lit "AND"))) 4 (lit "exp");
  parse_fails (lit "NOT(OR)") (Tok BOOL_OP 4 (TStr (lit "OR"))) 4 (lit "exp");
  parse_fails (lit "NOT(NOT)") (Tok RPARN 7 TNone) 7 (lit "att_name");
  parse_fails (lit "NOT(NOT())") (Tok RPARN 8 TNone) 8 (lit "exp")].
Proof. vm_compute. reflexivity. Qed.
(** hgpl/test/test_parsing.py 157 *)
Example parsing_test_ops : all_true [
  parses (lit "env.a = 0 OR env.b > 1 OR env.c < 2 OR env.d <= 3 OR env.e >= 4 OR env.f != 5") (nd CBoolOp (Tok BOOL_OP 64 (TStr (lit "OR"))) [(nd CBoolOp (Tok BOOL_OP 50 (TStr (lit "OR"))) [(nd CBoolOp (Tok BOOL_OP 36 (TStr (lit "OR"))) [(nd CBoolOp (Tok BOOL_OP 23 (TStr (lit "OR"))) [(nd CBoolOp (Tok BOOL_OP 10 (TStr (lit "OR"))) [(nd COp (Tok OP 6 (TStr (lit "="))) [(nd CEnv (Tok ENV_ATT 0 (TStr (lit "a"))) []); (nd CInt (Tok INT 8 (TInt 0)) [])]); (nd COp (Tok OP 19 (TStr (lit ">"))) [(nd CEnv (Tok ENV_ATT 13 (TStr (lit "b"))) []); (nd CInt (Tok INT 21 (TInt 1)) [])])]); (nd COp (Tok OP 32 (TStr (lit "<"))) [(nd CEnv (Tok ENV_ATT 26 (TStr (lit "c"))) []); (nd CInt (Tok INT 34 (TInt 2)) [])])]); (nd COp (Tok OP 45 (TStr (lit "<="))) [(nd CEnv (Tok ENV_ATT 39 (TStr (lit "d"))) []); (nd CInt (Tok INT 48 (TInt 3)) [])])]); (nd COp (Tok OP 59 (TStr (lit ">="))) [(nd CEnv (Tok ENV_ATT 53 (TStr (lit "e"))) []); (nd CInt (Tok INT 62 (TInt 4)) [])])]); (nd COp (Tok OP 73 (TStr (lit "!="))) [(nd CEnv (Tok ENV_ATT 67 (TStr (lit "f"))) []); (nd CInt (Tok INT 76 (TInt 5)) [])])]);
  parses (lit "env.a = env._a OR env.b > env._b OR env.c < env._c OR env.d <= env._d OR env.e >= env._e OR env.f != env._f") (nd CBoolOp (Tok BOOL_OP 89 (TStr (lit "OR"))) [(nd CBoolOp (Tok BOOL_OP 70 (TStr (lit "OR"))) [(nd CBoolOp (Tok BOOL_OP 51 (TStr (lit "OR"))) [(nd CBoolOp (Tok BOOL_OP 33 (TStr (lit "OR"))) [(nd CBoolOp (Tok BOOL_OP 15 (TStr (lit "OR"))) [(nd COp (Tok OP 6 (TStr (lit "="))) [(nd CEnv (Tok ENV_ATT 0 (TStr (lit "a"))) []); (nd CEnv (Tok ENV_ATT 8 (TStr (lit "_a"))) [])]); (nd COp (Tok OP 24 (TStr (lit ">"))) [(nd CEnv (Tok ENV_ATT 18 (TStr (lit "b"))) []); (nd CEnv (Tok ENV_ATT 26 (TStr (lit "_b"))) [])])]); (nd COp (Tok OP 42 (TStr (lit "<"))) [(nd CEnv (Tok ENV_ATT 36 (TStr (lit "c"))) []); (nd CEnv (Tok ENV_ATT 44 (TStr (lit "_c"))) [])])]); (nd COp (Tok OP 60 (TStr (lit "<="))) [(nd CEnv (Tok ENV_ATT 54 (TStr (lit "d"))) []); (nd CEnv (Tok ENV_ATT 63 (TStr (lit "_d"))) [])])]); (nd COp (Tok OP 79 (TStr (lit ">="))) [(nd CEnv (Tok ENV_ATT 73 (TStr (lit "e"))) []); (nd CEnv (Tok ENV_ATT 82 (TStr (lit "_e"))) [])])]); (nd COp (Tok OP 98 (TStr (lit "!="))) [(nd CEnv (Tok ENV_ATT 92 (TStr (lit "f"))) []); (nd CEnv (Tok ENV_ATT 101 (TStr (lit "_f"))) [])])]);
  parses (lit "env.1 IN {1,2,3} AND env.2 IN env._2 AND env.3 SUBSET {1,2,3} AND env.3 SUBSET env._3") (nd CBoolOp (Tok BOOL_OP 62 (TStr (lit "AND"))) [(nd CBoolOp (Tok BOOL_OP 37 (TStr (lit "AND"))) [(nd CBoolOp (Tok BOOL_OP 17 (TStr (lit "AND"))) [(nd COp (Tok OP 6 (TStr (lit "IN"))) [(nd CEnv (Tok ENV_ATT 0 (TStr (lit "1"))) []); (nd (CSet (Some (Tok RSET 15 TNone))) (Tok LSET 9 TNone) [(nd CInt (Tok INT 10 (TInt 1)) []); (nd CInt (Tok INT 12 (TInt 2)) []); (nd CInt (Tok INT 14 (TInt 3)) [])])]); (nd COp (Tok OP 27 (TStr (lit "IN"))) [(nd CEnv (Tok ENV_ATT 21 (TStr (lit "2"))) []); (nd CEnv (Tok ENV_ATT 30 (TStr (lit "_2"))) [])])]); (nd COp (Tok OP 47 (TStr (lit "SUBSET"))) [(nd CEnv (Tok ENV_ATT 41 (TStr (lit "3"))) []); (nd (CSet (Some (Tok RSET 60 TNone))) (Tok LSET 54 TNone) [(nd CInt (Tok INT 55 (TInt 1)) []); (nd CInt (Tok INT 57 (TInt 2)) []); (nd CInt (Tok INT 59 (TInt 3)) [])])])]); (nd COp (Tok OP 72 (TStr (lit "SUBSET"))) [(nd CEnv (Tok ENV_ATT 66 (TStr (lit "3"))) []); (nd CEnv (Tok ENV_ATT 79 (TStr (lit "_3"))) [])])])].
Proof. vm_compute. reflexivity. Qed.
(** hgpl/test/test_parsing.py 237 *)
Example parsing_test_nums_and_atts : all_true [
  parses (lit "user.a = 1 AND object.1 = 0 AND connect.a1 = -1 AND admin._ = 0.1 AND env._abc_123_ = -010.00234567890") (nd CBoolOp (Tok BOOL_OP 66 (TStr (lit "AND"))) [(nd CBoolOp (Tok BOOL_OP 48 (TStr (lit "AND"))) [(nd CBoolOp (Tok BOOL_OP 28 (TStr (lit "AND"))) [(nd CBoolOp (Tok BOOL_OP 11 (TStr (lit "AND"))) [(nd COp (Tok OP 7 (TStr (lit "="))) [(nd CUsr (Tok USR_ATT 0 (TStr (lit "a"))) []); (nd CInt (Tok INT 9 (TInt 1)) [])]); (nd COp (Tok OP 24 (TStr (lit "="))) [(nd CObj (Tok OBJ_ATT 15 (TStr (lit "1"))) []); (nd CInt (Tok INT 26 (TInt 0)) [])])]); (nd COp (Tok OP 43 (TStr (lit "="))) [(nd CCon (Tok CON_ATT 32 (TStr (lit "a1"))) []); (nd CInt (Tok INT 45 (TInt (-1))) [])])]); (nd COp (Tok OP 60 (TStr (lit "="))) [(nd CAdm (Tok ADM_ATT 52 (TStr (lit "_"))) []); (nd CFloat (Tok FLOAT 62 (TFloat (S754_finite false 7205759403792794 (-56)))) [])])]); (nd COp (Tok OP 84 (TStr (lit "="))) [(nd CEnv (Tok ENV_ATT 70 (TStr (lit "_abc_123_"))) []); (nd CFloat (Tok FLOAT 86 (TFloat (S754_finite true 5630820034040616 (-49)))) [])])]);
  parses (lit "env.stringz_1234567890_ABCDEFG = ""HELLO WORLD! 1234567890 !@#$%^&*()_+-=[]{}\|;':,./<>?`~ abcdzxy""") (nd COp (Tok OP 31 (TStr (lit "="))) [(nd CEnv (Tok ENV_ATT 0 (TStr (lit "stringz_1234567890_ABCDEFG"))) []); (nd CString (Tok STRING 33 (TStr (lit "HELLO WORLD! 1234567890 !@#$%^&*()_+-=[]{}\|;':,./<>?`~ abcdzxy"))) [])]);
  parses (lit "admin.00000 = NULL OR user.____ = 9999999 OR connect.aaaaaa = 0.000001 OR env.AAAAA = -0.000001 OR object.99999 = -9999999") (nd CBoolOp (Tok BOOL_OP 96 (TStr (lit "OR"))) [(nd CBoolOp (Tok BOOL_OP 71 (TStr (lit "OR"))) [(nd CBoolOp (Tok BOOL_OP 42 (TStr (lit "OR"))) [(nd CBoolOp (Tok BOOL_OP 19 (TStr (lit "OR"))) [(nd COp (Tok OP 12 (TStr (lit "="))) [(nd CAdm (Tok ADM_ATT 0 (TStr (lit "00000"))) []); (nd CNull (Tok NULL 14 (TStr (lit "NULL"))) [])]); (nd COp (Tok OP 32 (TStr (lit "="))) [(nd CUsr (Tok USR_ATT 22 (TStr (lit "____"))) []); (nd CInt (Tok INT 34 (TInt 9999999)) [])])]); (nd COp (Tok OP 60 (TStr (lit "="))) [(nd CCon (Tok CON_ATT 45 (TStr (lit "aaaaaa"))) []); (nd CFloat (Tok FLOAT 62 (TFloat (S754_finite false 4722366482869645 (-72)))) [])])]); (nd COp (Tok OP 84 (TStr (lit "="))) [(nd CEnv (Tok ENV_ATT 74 (TStr (lit "AAAAA"))) []); (nd CFloat (Tok FLOAT 86 (TFloat (S754_finite true 4722366482869645 (-72)))) [])])]); (nd COp (Tok OP 112 (TStr (lit "="))) [(nd CObj (Tok OBJ_ATT 99 (TStr (lit "99999"))) []); (nd CInt (Tok INT 114 (TInt (-9999999))) [])])])].
Proof. vm_compute. reflexivity. Qed.
(** hgpl/test/test_parsing.py 291 *)
Example parsing_test_simple_parns : all_true [
  parses (lit "( TRUE )") (nd CBoolVal (Tok BOOL 2 (TStr (lit "TRUE"))) []);
  parses (lit "((FALSE))") (nd CBoolVal (Tok BOOL 2 (TStr (lit "FALSE"))) []);
  parses (lit "( ( ( ( ( ( ( ( ( ( UNDEF ))))))))))") (nd CBoolVal (Tok BOOL 20 (TStr (lit "UNDEF"))) []);
  parses (lit "NOT(TRUE)") (nd CNot (Tok NOT_OP 0 (TStr (lit "NOT"))) [(nd CBoolVal (Tok BOOL 4 (TStr (lit "TRUE"))) [])]);
  parses (lit "NOT(NOT(FALSE))") (nd CNot (Tok NOT_OP 0 (TStr (lit "NOT"))) [(nd CNot (Tok NOT_OP 4 (TStr (lit "NOT"))) [(nd CBoolVal (Tok BOOL 8 (TStr (lit "FALSE"))) [])])]);
  parses (lit "NOT( ( NOT( ( ( NOT( NOT( ( NOT( ( UNDEF ))))))))))") (nd CNot (Tok NOT_OP 0 (TStr (lit "NOT"))) [(nd CNot (Tok NOT_OP 7 (TStr (lit "NOT"))) [(nd CNot (Tok NOT_OP 16 (TStr (lit "NOT"))) [(nd CNot (Tok NOT_OP 21 (TStr (lit "NOT"))) [(nd CNot (Tok NOT_OP 28 (TStr (lit "NOT"))) [(nd CBoolVal (Tok BOOL 35 (TStr (lit "UNDEF"))) [])])])])])])].
Proof. vm_compute. reflexivity. Qed.
(** hgpl/test/test_parsing.py 325 *)
Example parsing_test_complex_parns : all_true [
  parses (lit "(user.bool OR admin.bool) AND (connect.bool OR env.bool)") (nd CBoolOp (Tok BOOL_OP 26 (TStr (lit "AND"))) [(nd CBoolOp (Tok BOOL_OP 11 (TStr (lit "OR"))) [(nd CUsr (Tok USR_ATT 1 (TStr (lit "bool"))) []); (nd CAdm (Tok ADM_ATT 14 (TStr (lit "bool"))) [])]); (nd CBoolOp (Tok BOOL_OP 44 (TStr (lit "OR"))) [(nd CCon (Tok CON_ATT 31 (TStr (lit "bool"))) []); (nd CEnv (Tok ENV_ATT 47 (TStr (lit "bool"))) [])])]);
  parses (lit "(user.bool OR admin.bool) AND connect.bool OR env.bool") (nd CBoolOp (Tok BOOL_OP 43 (TStr (lit "OR"))) [(nd CBoolOp (Tok BOOL_OP 26 (TStr (lit "AND"))) [(nd CBoolOp (Tok BOOL_OP 11 (TStr (lit "OR"))) [(nd CUsr (Tok USR_ATT 1 (TStr (lit "bool"))) []); (nd CAdm (Tok ADM_ATT 14 (TStr (lit "bool"))) [])]); (nd CCon (Tok CON_ATT 30 (TStr (lit "bool"))) [])]); (nd CEnv (Tok ENV_ATT 46 (TStr (lit "bool"))) [])]);
  parses (lit "user.bool OR admin.bool AND (connect.bool OR env.bool)") (nd CBoolOp (Tok BOOL_OP 10 (TStr (lit "OR"))) [(nd CUsr (Tok USR_ATT 0 (TStr (lit "bool"))) []); (nd CBoolOp (Tok BOOL_OP 24 (TStr (lit "AND"))) [(nd CAdm (Tok ADM_ATT 13 (TStr (lit "bool"))) []); (nd CBoolOp (Tok BOOL_OP 42 (TStr (lit "OR"))) [(nd CCon (Tok CON_ATT 29 (TStr (lit "bool"))) []); (nd CEnv (Tok ENV_ATT 45 (TStr (lit "bool"))) [])])])]);
  parses (lit "user.bool OR (admin.bool AND connect.bool) OR env.bool") (nd CBoolOp (Tok BOOL_OP 43 (TStr (lit "OR"))) [(nd CBoolOp (Tok BOOL_OP 10 (TStr (lit "OR"))) [(nd CUsr (Tok USR_ATT 0 (TStr (lit "bool"))) []); (nd CBoolOp (Tok BOOL_OP 25 (TStr (lit "AND"))) [(nd CAdm (Tok ADM_ATT 14 (TStr (lit "bool"))) []); (nd CCon (Tok CON_ATT 29 (TStr (lit "bool"))) [])])]); (nd CEnv (Tok ENV_ATT 46 (TStr (lit "bool"))) [])]);
  parses (lit "(user.bool OR admin.bool AND connect.bool) OR env.bool") (nd CBoolOp (Tok BOOL_OP 43 (TStr (lit "OR"))) [(nd CBoolOp (Tok BOOL_OP 11 (TStr (lit "OR"))) [(nd CUsr (Tok USR_ATT 1 (TStr (lit "bool"))) []); (nd CBoolOp (Tok BOOL_OP 25 (TStr (lit "AND"))) [(nd CAdm (Tok ADM_ATT 14 (TStr (lit "bool"))) []); (nd CCon (Tok CON_ATT 29 (TStr (lit "bool"))) [])])]); (nd CEnv (Tok ENV_ATT 46 (TStr (lit "bool"))) [])]);
  parses (lit "user.bool OR (admin.bool AND connect.bool OR env.bool)") (nd CBoolOp (Tok BOOL_OP 10 (TStr (lit "OR"))) [(nd CUsr (Tok USR_ATT 0 (TStr (lit "bool"))) []); (nd CBoolOp (Tok BOOL_OP 42 (TStr (lit "OR"))) [(nd CBoolOp (Tok BOOL_OP 25 (TStr (lit "AND"))) [(nd CAdm (Tok ADM_ATT 14 (TStr (lit "bool"))) []); (nd CCon (Tok CON_ATT 29 (TStr (lit "bool"))) [])]); (nd CEnv (Tok ENV_ATT 45 (TStr (lit "bool"))) [])])]);
  parses (lit "(((((user.bool) OR ((admin.bool)))) AND (((connect.bool) OR (env.bool)))))") (nd CBoolOp (Tok BOOL_OP 36 (TStr (lit "AND"))) [(nd CBoolOp (Tok BOOL_OP 16 (TStr (lit "OR"))) [(nd CUsr (Tok USR_ATT 5 (TStr (lit "bool"))) []); (nd CAdm (Tok ADM_ATT 21 (TStr (lit "bool"))) [])]); (nd CBoolOp (Tok BOOL_OP 57 (TStr (lit "OR"))) [(nd CCon (Tok CON_ATT 43 (TStr (lit "bool"))) []); (nd CEnv (Tok ENV_ATT 61 (TStr (lit "bool"))) [])])]);
  parses (lit "user.1 >= 5 AND (user.2 = 3 OR (user.3 = 4 OR (user.4 = 5 OR (user.6 = 7 OR (user.8 = 9 AND object.8 = 5) OR object.6 = 7) AND object.4 = 5) OR object.3 = 4) AND NOT (user.2 = 3)) OR object.1 <= 5") (nd CBoolOp (Tok BOOL_OP 180 (TStr (lit "OR"))) [(nd CBoolOp (Tok BOOL_OP 12 (TStr (lit "AND"))) [(nd COp (Tok OP 7 (TStr (lit ">="))) [(nd CUsr (Tok USR_ATT 0 (TStr (lit "1"))) []); (nd CInt (Tok INT 10 (TInt 5)) [])]); (nd CBoolOp (Tok BOOL_OP 28 (TStr (lit "OR"))) [(nd COp (Tok OP 24 (TStr (lit "="))) [(nd CUsr (Tok USR_ATT 17 (TStr (lit "2"))) []); (nd CInt (Tok INT 26 (TInt 3)) [])]); (nd CBoolOp (Tok BOOL_OP 158 (TStr (lit "AND"))) [(nd CBoolOp (Tok BOOL_OP 141 (TStr (lit "OR"))) [(nd CBoolOp (Tok BOOL_OP 43 (TStr (lit "OR"))) [(nd COp (Tok OP 39 (TStr (lit "="))) [(nd CUsr (Tok USR_ATT 32 (TStr (lit "3"))) []); (nd CInt (Tok INT 41 (TInt 4)) [])]); (nd CBoolOp (Tok BOOL_OP 58 (TStr (lit "OR"))) [(nd COp (Tok OP 54 (TStr (lit "="))) [(nd CUsr (Tok USR_ATT 47 (TStr (lit "4"))) []); (nd CInt (Tok INT 56 (TInt 5)) [])]); (nd CBoolOp (Tok BOOL_OP 123 (TStr (lit "AND"))) [(nd CBoolOp (Tok BOOL_OP 106 (TStr (lit "OR"))) [(nd CBoolOp (Tok BOOL_OP 73 (TStr (lit "OR"))) [(nd COp (Tok OP 69 (TStr (lit "="))) [(nd CUsr (Tok USR_ATT 62 (TStr (lit "6"))) []); (nd CInt (Tok INT 71 (TInt 7)) [])]); (nd CBoolOp (Tok BOOL_OP 88 (TStr (lit "AND"))) [(nd COp (Tok OP 84 (TStr (lit "="))) [(nd CUsr (Tok USR_ATT 77 (TStr (lit "8"))) []); (nd CInt (Tok INT 86 (TInt 9)) [])]); (nd COp (Tok OP 101 (TStr (lit "="))) [(nd CObj (Tok OBJ_ATT 92 (TStr (lit "8"))) []); (nd CInt (Tok INT 103 (TInt 5)) [])])])]); (nd COp (Tok OP 118 (TStr (lit "="))) [(nd CObj (Tok OBJ_ATT 109 (TStr (lit "6"))) []); (nd CInt (Tok INT 120 (TInt 7)) [])])]); (nd COp (Tok OP 136 (TStr (lit "="))) [(nd CObj (Tok OBJ_ATT 127 (TStr (lit "4"))) []); (nd CInt (Tok INT 138 (TInt 5)) [])])])])]); (nd COp (Tok OP 153 (TStr (lit "="))) [(nd CObj (Tok OBJ_ATT 144 (TStr (lit "3"))) []); (nd CInt (Tok INT 155 (TInt 4)) [])])]); (nd CNot (Tok NOT_OP 162 (TStr (lit "NOT"))) [(nd COp (Tok OP 174 (TStr (lit "="))) [(nd CUsr (Tok USR_ATT 167 (TStr (lit "2"))) []); (nd CInt (Tok INT 176 (TInt 3)) [])])])])])]); (nd COp (Tok OP 192 (TStr (lit "<="))) [(nd CObj (Tok OBJ_ATT 183 (TStr (lit "1"))) []); (nd CInt (Tok INT 195 (TInt 5)) [])])]);
  parses (lit "((((((((((((user.1 >= 5) AND user.2 = 3) OR user.3 = 4) OR user.4 = 5) OR user.6 = 7) OR user.8 = 9) AND object.8 = 5) OR object.6 = 7) AND object.4 = 5) OR object.3 = 4) AND NOT (user.2 = 3)) OR object.1 <= 5)") (nd CBoolOp (Tok BOOL_OP 193 (TStr (lit "OR"))) [(nd CBoolOp (Tok BOOL_OP 171 (TStr (lit "AND"))) [(nd CBoolOp (Tok BOOL_OP 154 (TStr (lit "OR"))) [(nd CBoolOp (Tok BOOL_OP 136 (TStr (lit "AND"))) [(nd CBoolOp (Tok BOOL_OP 119 (TStr (lit "OR"))) [(nd CBoolOp (Tok BOOL_OP 101 (TStr (lit "AND"))) [(nd CBoolOp (Tok BOOL_OP 86 (TStr (lit "OR"))) [(nd CBoolOp (Tok BOOL_OP 71 (TStr (lit "OR"))) [(nd CBoolOp (Tok BOOL_OP 56 (TStr (lit "OR"))) [(nd CBoolOp (Tok BOOL_OP 41 (TStr (lit "OR"))) [(nd CBoolOp (Tok BOOL_OP 25 (TStr (lit "AND"))) [(nd COp (Tok OP 19 (TStr (lit ">="))) [(nd CUsr (Tok USR_ATT 12 (TStr (lit "1"))) []); (nd CInt (Tok INT 22 (TInt 5)) [])]); (nd COp (Tok OP 36 (TStr (lit "="))) [(nd CUsr (Tok USR_ATT 29 (TStr (lit "2"))) []); (nd CInt (Tok INT 38 (TInt 3)) [])])]); (nd COp (Tok OP 51 (TStr (lit "="))) [(nd CUsr (Tok USR_ATT 44 (TStr (lit "3"))) []); (nd CInt (Tok INT 53 (TInt 4)) [])])]); (nd COp (Tok OP 66 (TStr (lit "="))) [(nd CUsr (Tok USR_ATT 59 (TStr (lit "4"))) []); (nd CInt (Tok INT 68 (TInt 5)) [])])]); (nd COp (Tok OP 81 (TStr (lit "="))) [(nd CUsr (Tok USR_ATT 74 (TStr (lit "6"))) []); (nd CInt (Tok INT 83 (TInt 7)) [])])]); (nd COp (Tok OP 96 (TStr (lit "="))) [(nd CUsr (Tok USR_ATT 89 (TStr (lit "8"))) []); (nd CInt (Tok INT 98 (TInt 9)) [])])]); (nd COp (Tok OP 114 (TStr (lit "="))) [(nd CObj (Tok OBJ_ATT 105 (TStr (lit "8"))) []); (nd CInt (Tok INT 116 (TInt 5)) [])])]); (nd COp (Tok OP 131 (TStr (lit "="))) [(nd CObj (Tok OBJ_ATT 122 (TStr (lit "6"))) []); (nd CInt (Tok INT 133 (TInt 7)) [])])]); (nd COp (Tok OP 149 (TStr (lit "="))) [(nd CObj (Tok OBJ_ATT 140 (TStr (lit "4"))) []); (nd CInt (Tok INT 151 (TInt 5)) [])])]); (nd COp (Tok OP 166 (TStr (lit "="))) [(nd CObj (Tok OBJ_ATT 157 (TStr (lit "3"))) []); (nd CInt (Tok INT 168 (TInt 4)) [])])]); (nd CNot (Tok NOT_OP 175 (TStr (lit "NOT"))) [(nd COp (Tok OP 187 (TStr (lit "="))) [(nd CUsr (Tok USR_ATT 180 (TStr (lit "2"))) []); (nd CInt (Tok INT 189 (TInt 3)) [])])])]); (nd COp (Tok OP 205 (TStr (lit "<="))) [(nd CObj (Tok OBJ_ATT 196 (TStr (lit "1"))) []); (nd CInt (Tok INT 208 (TInt 5)) [])])]);
  parses (lit "(user.1 >= 5 AND (user.2 = 3 OR (user.3 = 4 OR (user.4 = 5 OR (user.6 = 7 OR (user.8 = 9 AND (object.8 = 5 OR (object.6 = 7 AND (object.4 = 5 OR (object.3 = 4 AND (NOT (user.2 = 3) OR (object.1 <= 5))))))))))))") (nd CBoolOp (Tok BOOL_OP 13 (TStr (lit "AND"))) [(nd COp (Tok OP 8 (TStr (lit ">="))) [(nd CUsr (Tok USR_ATT 1 (TStr (lit "1"))) []); (nd CInt (Tok INT 11 (TInt 5)) [])]); (nd CBoolOp (Tok BOOL_OP 29 (TStr (lit "OR"))) [(nd COp (Tok OP 25 (TStr (lit "="))) [(nd CUsr (Tok USR_ATT 18 (TStr (lit "2"))) []); (nd CInt (Tok INT 27 (TInt 3)) [])]); (nd CBoolOp (Tok BOOL_OP 44 (TStr (lit "OR"))) [(nd COp (Tok OP 40 (TStr (lit "="))) [(nd CUsr (Tok USR_ATT 33 (TStr (lit "3"))) []); (nd CInt (Tok INT 42 (TInt 4)) [])]); (nd CBoolOp (Tok BOOL_OP 59 (TStr (lit "OR"))) [(nd COp (Tok OP 55 (TStr (lit "="))) [(nd CUsr (Tok USR_ATT 48 (TStr (lit "4"))) []); (nd CInt (Tok INT 57 (TInt 5)) [])]); (nd CBoolOp (Tok BOOL_OP 74 (TStr (lit "OR"))) [(nd COp (Tok OP 70 (TStr (lit "="))) [(nd CUsr (Tok USR_ATT 63 (TStr (lit "6"))) []); (nd CInt (Tok INT 72 (TInt 7)) [])]); (nd CBoolOp (Tok BOOL_OP 89 (TStr (lit "AND"))) [(nd COp (Tok OP 85 (TStr (lit "="))) [(nd CUsr (Tok USR_ATT 78 (TStr (lit "8"))) []); (nd CInt (Tok INT 87 (TInt 9)) [])]); (nd CBoolOp (Tok BOOL_OP 107 (TStr (lit "OR"))) [(nd COp (Tok OP 103 (TStr (lit "="))) [(nd CObj (Tok OBJ_ATT 94 (TStr (lit "8"))) []); (nd CInt (Tok INT 105 (TInt 5)) [])]); (nd CBoolOp (Tok BOOL_OP 124 (TStr (lit "AND"))) [(nd COp (Tok OP 120 (TStr (lit "="))) [(nd CObj (Tok OBJ_ATT 111 (TStr (lit "6"))) []); (nd CInt (Tok INT 122 (TInt 7)) [])]); (nd CBoolOp (Tok BOOL_OP 142 (TStr (lit "OR"))) [(nd COp (Tok OP 138 (TStr (lit "="))) [(nd CObj (Tok OBJ_ATT 129 (TStr (lit "4"))) []); (nd CInt (Tok INT 140 (TInt 5)) [])]); (nd CBoolOp (Tok BOOL_OP 159 (TStr (lit "AND"))) [(nd COp (Tok OP 155 (TStr (lit "="))) [(nd CObj (Tok OBJ_ATT 146 (TStr (lit "3"))) []); (nd CInt (Tok INT 157 (TInt 4)) [])]); (nd CBoolOp (Tok BOOL_OP 181 (TStr (lit "OR"))) [(nd CNot (Tok NOT_OP 164 (TStr (lit "NOT"))) [(nd COp (Tok OP 176 (TStr (lit "="))) [(nd CUsr (Tok USR_ATT 169 (TStr (lit "2"))) []); (nd CInt (Tok INT 178 (TInt 3)) [])])]); (nd COp (Tok OP 194 (TStr (lit "<="))) [(nd CObj (Tok OBJ_ATT 185 (TStr (lit "1"))) []); (nd CInt (Tok INT 197 (TInt 5)) [])])])])])])])])])])])])])].
Proof. vm_compute. reflexivity. Qed.
(** hgpl/test/test_parsing.py 555 *)
Example parsing_test_bools : all_true [
  parses (lit "TRUE OR FALSE AND UNDEF or false and true and undef Or True And False aNd Undef") (nd CBoolOp (Tok BOOL_OP 52 (TStr (lit "OR"))) [(nd CBoolOp (Tok BOOL_OP 24 (TStr (lit "OR"))) [(nd CBoolOp (Tok BOOL_OP 5 (TStr (lit "OR"))) [(nd CBoolVal (Tok BOOL 0 (TStr (lit "TRUE"))) []); (nd CBoolOp (Tok BOOL_OP 14 (TStr (lit "AND"))) [(nd CBoolVal (Tok BOOL 8 (TStr (lit "FALSE"))) []); (nd CBoolVal (Tok BOOL 18 (TStr (lit "UNDEF"))) [])])]); (nd CBoolOp (Tok BOOL_OP 42 (TStr (lit "AND"))) [(nd CBoolOp (Tok BOOL_OP 33 (TStr (lit "AND"))) [(nd CBoolVal (Tok BOOL 27 (TStr (lit "FALSE"))) []); (nd CBoolVal (Tok BOOL 37 (TStr (lit "TRUE"))) [])]); (nd CBoolVal (Tok BOOL 46 (TStr (lit "UNDEF"))) [])])]); (nd CBoolOp (Tok BOOL_OP 70 (TStr (lit "AND"))) [(nd CBoolOp (Tok BOOL_OP 60 (TStr (lit "AND"))) [(nd CBoolVal (Tok BOOL 55 (TStr (lit "TRUE"))) []); (nd CBoolVal (Tok BOOL 64 (TStr (lit "FALSE"))) [])]); (nd CBoolVal (Tok BOOL 74 (TStr (lit "UNDEF"))) [])])]);
  parses (lit "NOT TRUE OR NOT FALSE OR NOT UNDEF") (nd CBoolOp (Tok BOOL_OP 22 (TStr (lit "OR"))) [(nd CBoolOp (Tok BOOL_OP 9 (TStr (lit "OR"))) [(nd CNot (Tok NOT_OP 0 (TStr (lit "NOT"))) [(nd CBoolVal (Tok BOOL 4 (TStr (lit "TRUE"))) [])]); (nd CNot (Tok NOT_OP 12 (TStr (lit "NOT"))) [(nd CBoolVal (Tok BOOL 16 (TStr (lit "FALSE"))) [])])]); (nd CNot (Tok NOT_OP 25 (TStr (lit "NOT"))) [(nd CBoolVal (Tok BOOL 29 (TStr (lit "UNDEF"))) [])])]);
  parses (lit "user.bool OR admin.bool AND env.bool OR connect.bool") (nd CBoolOp (Tok BOOL_OP 37 (TStr (lit "OR"))) [(nd CBoolOp (Tok BOOL_OP 10 (TStr (lit "OR"))) [(nd CUsr (Tok USR_ATT 0 (TStr (lit "bool"))) []); (nd CBoolOp (Tok BOOL_OP 24 (TStr (lit "AND"))) [(nd CAdm (Tok ADM_ATT 13 (TStr (lit "bool"))) []); (nd CEnv (Tok ENV_ATT 28 (TStr (lit "bool"))) [])])]); (nd CCon (Tok CON_ATT 40 (TStr (lit "bool"))) [])]);
  parses (lit "NOT connect.bool AND NOT user.bool OR NOT admin.bool AND NOT env.bool") (nd CBoolOp (Tok BOOL_OP 35 (TStr (lit "OR"))) [(nd CBoolOp (Tok BOOL_OP 17 (TStr (lit "AND"))) [(nd CNot (Tok NOT_OP 0 (TStr (lit "NOT"))) [(nd CCon (Tok CON_ATT 4 (TStr (lit "bool"))) [])]); (nd CNot (Tok NOT_OP 21 (TStr (lit "NOT"))) [(nd CUsr (Tok USR_ATT 25 (TStr (lit "bool"))) [])])]); (nd CBoolOp (Tok BOOL_OP 53 (TStr (lit "AND"))) [(nd CNot (Tok NOT_OP 38 (TStr (lit "NOT"))) [(nd CAdm (Tok ADM_ATT 42 (TStr (lit "bool"))) [])]); (nd CNot (Tok NOT_OP 57 (TStr (lit "NOT"))) [(nd CEnv (Tok ENV_ATT 61 (TStr (lit "bool"))) [])])])])].
Proof. vm_compute. reflexivity. Qed.
(** hgpl/test/test_parsing.py 612 *)
Example parsing_test_sets : all_true [
  parses (lit "user.all IN {1, 2, 3, ""a"", ""b"", ""c"", 1.1, 1.2, 1.3, NULL, nUlL, null, ""Hello World"", 1234567890, 0987654321.1234567890}") (nd COp (Tok OP 9 (TStr (lit "IN"))) [(nd CUsr (Tok USR_ATT 0 (TStr (lit "all"))) []); (nd (CSet (Some (Tok RSET 118 TNone))) (Tok LSET 12 TNone) [(nd CInt (Tok INT 13 (TInt 1)) []); (nd CInt (Tok INT 16 (TInt 2)) []); (nd CInt (Tok INT 19 (TInt 3)) []); (nd CString (Tok STRING 22 (TStr (lit "a"))) []); (nd CString (Tok STRING 27 (TStr (lit "b"))) []); (nd CString (Tok STRING 32 (TStr (lit "c"))) []); (nd CFloat (Tok FLOAT 37 (TFloat (S754_finite false 4953959590107546 (-52)))) []); (nd CFloat (Tok FLOAT 42 (TFloat (S754_finite false 5404319552844595 (-52)))) []); (nd CFloat (Tok FLOAT 47 (TFloat (S754_finite false 5854679515581645 (-52)))) []); (nd CNull (Tok NULL 52 (TStr (lit "NULL"))) []); (nd CNull (Tok NULL 58 (TStr (lit "NULL"))) []); (nd CNull (Tok NULL 64 (TStr (lit "NULL"))) []); (nd CString (Tok STRING 70 (TStr (lit "Hello World"))) []); (nd CInt (Tok INT 85 (TInt 1234567890)) []); (nd CFloat (Tok FLOAT 97 (TFloat (S754_finite false 8285044939410799 (-23)))) [])])]);
  parses (lit "admin.empty_set = {}") (nd COp (Tok OP 16 (TStr (lit "="))) [(nd CAdm (Tok ADM_ATT 0 (TStr (lit "empty_set"))) []); (nd (CSet (Some (Tok RSET 19 TNone))) (Tok LSET 18 TNone) [])]);
  parses (lit "object.size_one_set_num = {1337}") (nd COp (Tok OP 24 (TStr (lit "="))) [(nd CObj (Tok OBJ_ATT 0 (TStr (lit "size_one_set_num"))) []); (nd (CSet (Some (Tok RSET 31 TNone))) (Tok LSET 26 TNone) [(nd CInt (Tok INT 27 (TInt 1337)) [])])]);
  parses (lit "connect.size_one_set_float = {3.14}") (nd COp (Tok OP 27 (TStr (lit "="))) [(nd CCon (Tok CON_ATT 0 (TStr (lit "size_one_set_float"))) []); (nd (CSet (Some (Tok RSET 34 TNone))) (Tok LSET 29 TNone) [(nd CFloat (Tok FLOAT 30 (TFloat (S754_finite false 7070651414971679 (-51)))) [])])]);
  parses (lit "{""one set with string""} != {""two set"", ""with string""}") (nd COp (Tok OP 24 (TStr (lit "!="))) [(nd (CSet (Some (Tok RSET 22 TNone))) (Tok LSET 0 TNone) [(nd CString (Tok STRING 1 (TStr (lit "one set with string"))) [])]); (nd (CSet (Some (Tok RSET 52 TNone))) (Tok LSET 27 TNone) [(nd CString (Tok STRING 28 (TStr (lit "two set"))) []); (nd CString (Tok STRING 39 (TStr (lit "with string"))) [])])]);
  parses (lit "{null} SUBSET env.one_set_null") (nd COp (Tok OP 7 (TStr (lit "SUBSET"))) [(nd (CSet (Some (Tok RSET 5 TNone))) (Tok LSET 0 TNone) [(nd CNull (Tok NULL 1 (TStr (lit "NULL"))) [])]); (nd CEnv (Tok ENV_ATT 14 (TStr (lit "one_set_null"))) [])])].
Proof. vm_compute. reflexivity. Qed.
(** hgpl/test/test_parsing.py 672 *)
Example parsing_test_hgabac_paper_ex_a : all_true [
  parses (lit "user.id IN {5, 72, 4, 6, 4} OR user.id = object.owner") (nd CBoolOp (Tok BOOL_OP 28 (TStr (lit "OR"))) [(nd COp (Tok OP 8 (TStr (lit "IN"))) [(nd CUsr (Tok USR_ATT 0 (TStr (lit "id"))) []); (nd (CSet (Some (Tok RSET 26 TNone))) (Tok LSET 11 TNone) [(nd CInt (Tok INT 12 (TInt 5)) []); (nd CInt (Tok INT 15 (TInt 72)) []); (nd CInt (Tok INT 19 (TInt 4)) []); (nd CInt (Tok INT 22 (TInt 6)) []); (nd CInt (Tok INT 25 (TInt 4)) [])])]); (nd COp (Tok OP 39 (TStr (lit "="))) [(nd CUsr (Tok USR_ATT 31 (TStr (lit "id"))) []); (nd CObj (Tok OBJ_ATT 41 (TStr (lit "owner"))) [])])])].
Proof. vm_compute. reflexivity. Qed.
(** hgpl/test/test_parsing.py 689 *)
Example parsing_test_hgabac_paper_ex_b : all_true [
  parses (lit "object.required_perms SUBSET user.perms AND user.age >= 18") (nd CBoolOp (Tok BOOL_OP 40 (TStr (lit "AND"))) [(nd COp (Tok OP 22 (TStr (lit "SUBSET"))) [(nd CObj (Tok OBJ_ATT 0 (TStr (lit "required_perms"))) []); (nd CUsr (Tok USR_ATT 29 (TStr (lit "perms"))) [])]); (nd COp (Tok OP 53 (TStr (lit ">="))) [(nd CUsr (Tok USR_ATT 44 (TStr (lit "age"))) []); (nd CInt (Tok INT 56 (TInt 18)) [])])])].
Proof. vm_compute. reflexivity. Qed.
(** hgpl/test/test_parsing.py 700 *)
Example parsing_test_hgabac_paper_ex_c : all_true [
  parses (lit "user.admin OR (user.role = ""doctor"" AND user.id != object.patient)") (nd CBoolOp (Tok BOOL_OP 11 (TStr (lit "OR"))) [(nd CUsr (Tok USR_ATT 0 (TStr (lit "admin"))) []); (nd CBoolOp (Tok BOOL_OP 36 (TStr (lit "AND"))) [(nd COp (Tok OP 25 (TStr (lit "="))) [(nd CUsr (Tok USR_ATT 15 (TStr (lit "role"))) []); (nd CString (Tok STRING 27 (TStr (lit "doctor"))) [])]); (nd COp (Tok OP 48 (TStr (lit "!="))) [(nd CUsr (Tok USR_ATT 40 (TStr (lit "id"))) []); (nd CObj (Tok OBJ_ATT 51 (TStr (lit "patient"))) [])])])])].
Proof. vm_compute. reflexivity. Qed.
(** hgpl/test/test_parsing.py 713 *)
Example parsing_test_hgabac_paper_ex_c_with_parn_inverted : all_true [
  parses (lit "(user.admin OR user.role = ""doctor"") AND user.id != object.patient") (nd CBoolOp (Tok BOOL_OP 37 (TStr (lit "AND"))) [(nd CBoolOp (Tok BOOL_OP 12 (TStr (lit "OR"))) [(nd CUsr (Tok USR_ATT 1 (TStr (lit "admin"))) []); (nd COp (Tok OP 25 (TStr (lit "="))) [(nd CUsr (Tok USR_ATT 15 (TStr (lit "role"))) []); (nd CString (Tok STRING 27 (TStr (lit "doctor"))) [])])]); (nd COp (Tok OP 49 (TStr (lit "!="))) [(nd CUsr (Tok USR_ATT 41 (TStr (lit "id"))) []); (nd CObj (Tok OBJ_ATT 52 (TStr (lit "patient"))) [])])])].
Proof. vm_compute. reflexivity. Qed.
(** hgpl/test/test_parsing.py 726 *)
Example parsing_test_hgabac_paper_case_1 : all_true [
  parses (lit """undergrad"" IN user.user_type AND ((object.object_type = ""book"" AND NOT object.restricted) OR (object.object_type = ""course"" AND user.enrolled_in IN object.req_course))") (nd CBoolOp (Tok BOOL_OP 30 (TStr (lit "AND"))) [(nd COp (Tok OP 12 (TStr (lit "IN"))) [(nd CString (Tok STRING 0 (TStr (lit "undergrad"))) []); (nd CUsr (Tok USR_ATT 15 (TStr (lit "user_type"))) [])]); (nd CBoolOp (Tok BOOL_OP 91 (TStr (lit "OR"))) [(nd CBoolOp (Tok BOOL_OP 64 (TStr (lit "AND"))) [(nd COp (Tok OP 55 (TStr (lit "="))) [(nd CObj (Tok OBJ_ATT 36 (TStr (lit "object_type"))) []); (nd CString (Tok STRING 57 (TStr (lit "book"))) [])]); (nd CNot (Tok NOT_OP 68 (TStr (lit "NOT"))) [(nd CObj (Tok OBJ_ATT 72 (TStr (lit "restricted"))) [])])]); (nd CBoolOp (Tok BOOL_OP 125 (TStr (lit "AND"))) [(nd COp (Tok OP 114 (TStr (lit "="))) [(nd CObj (Tok OBJ_ATT 95 (TStr (lit "object_type"))) []); (nd CString (Tok STRING 116 (TStr (lit "course"))) [])]); (nd COp (Tok OP 146 (TStr (lit "IN"))) [(nd CUsr (Tok USR_ATT 129 (TStr (lit "enrolled_in"))) []); (nd CObj (Tok OBJ_ATT 149 (TStr (lit "req_course"))) [])])])])])].
Proof. vm_compute. reflexivity. Qed.
(** hgpl/test/test_parsing.py 749 *)
Example parsing_test_hgabac_paper_case_2 : all_true [
  parses (lit """grad"" IN user.user_type AND (object.object_type = ""periodical"" OR (object.object_type =""course"" AND object.req_course IN user.teaching))") (nd CBoolOp (Tok BOOL_OP 25 (TStr (lit "AND"))) [(nd COp (Tok OP 7 (TStr (lit "IN"))) [(nd CString (Tok STRING 0 (TStr (lit "grad"))) []); (nd CUsr (Tok USR_ATT 10 (TStr (lit "user_type"))) [])]); (nd CBoolOp (Tok BOOL_OP 64 (TStr (lit "OR"))) [(nd COp (Tok OP 49 (TStr (lit "="))) [(nd CObj (Tok OBJ_ATT 30 (TStr (lit "object_type"))) []); (nd CString (Tok STRING 51 (TStr (lit "periodical"))) [])]); (nd CBoolOp (Tok BOOL_OP 97 (TStr (lit "AND"))) [(nd COp (Tok OP 87 (TStr (lit "="))) [(nd CObj (Tok OBJ_ATT 68 (TStr (lit "object_type"))) []); (nd CString (Tok STRING 88 (TStr (lit "course"))) [])]); (nd COp (Tok OP 119 (TStr (lit "IN"))) [(nd CObj (Tok OBJ_ATT 101 (TStr (lit "req_course"))) []); (nd CUsr (Tok USR_ATT 122 (TStr (lit "teaching"))) [])])])])])].
Proof. vm_compute. reflexivity. Qed.
(** hgpl/test/test_parsing.py 769 *)
Example parsing_test_hgabac_paper_case_3 : all_true [
  parses (lit """faculty"" IN user.user_type AND(object.object_type IN {""book"", ""periodical"", ""course""} OR (object.object_type = ""archive"" AND object.depart IN user.depart))") (nd CBoolOp (Tok BOOL_OP 28 (TStr (lit "AND"))) [(nd COp (Tok OP 10 (TStr (lit "IN"))) [(nd CString (Tok STRING 0 (TStr (lit "faculty"))) []); (nd CUsr (Tok USR_ATT 13 (TStr (lit "user_type"))) [])]); (nd CBoolOp (Tok BOOL_OP 87 (TStr (lit "OR"))) [(nd COp (Tok OP 51 (TStr (lit "IN"))) [(nd CObj (Tok OBJ_ATT 32 (TStr (lit "object_type"))) []); (nd (CSet (Some (Tok RSET 85 TNone))) (Tok LSET 54 TNone) [(nd CString (Tok STRING 55 (TStr (lit "book"))) []); (nd CString (Tok STRING 63 (TStr (lit "periodical"))) []); (nd CString (Tok STRING 77 (TStr (lit "course"))) [])])]); (nd CBoolOp (Tok BOOL_OP 122 (TStr (lit "AND"))) [(nd COp (Tok OP 110 (TStr (lit "="))) [(nd CObj (Tok OBJ_ATT 91 (TStr (lit "object_type"))) []); (nd CString (Tok STRING 112 (TStr (lit "archive"))) [])]); (nd COp (Tok OP 140 (TStr (lit "IN"))) [(nd CObj (Tok OBJ_ATT 126 (TStr (lit "depart"))) []); (nd CUsr (Tok USR_ATT 143 (TStr (lit "depart"))) [])])])])])].
Proof. vm_compute. reflexivity. Qed.
(** hgpl/test/test_parsing.py 792 *)
Example parsing_test_hgabac_paper_case_4 : all_true [
  parses (lit """staff"" IN user.user_type AND env.time_of_day_hour >= 8 AND env.time_of_day_hour <= 16 AND env.day_of_week IN {2, 3, 4, 5, 6}") (nd CBoolOp (Tok BOOL_OP 87 (TStr (lit "AND"))) [(nd CBoolOp (Tok BOOL_OP 56 (TStr (lit "AND"))) [(nd CBoolOp (Tok BOOL_OP 26 (TStr (lit "AND"))) [(nd COp (Tok OP 8 (TStr (lit "IN"))) [(nd CString (Tok STRING 0 (TStr (lit "staff"))) []); (nd CUsr (Tok USR_ATT 11 (TStr (lit "user_type"))) [])]); (nd COp (Tok OP 51 (TStr (lit ">="))) [(nd CEnv (Tok ENV_ATT 30 (TStr (lit "time_of_day_hour"))) []); (nd CInt (Tok INT 54 (TInt 8)) [])])]); (nd COp (Tok OP 81 (TStr (lit "<="))) [(nd CEnv (Tok ENV_ATT 60 (TStr (lit "time_of_day_hour"))) []); (nd CInt (Tok INT 84 (TInt 16)) [])])]); (nd COp (Tok OP 107 (TStr (lit "IN"))) [(nd CEnv (Tok ENV_ATT 91 (TStr (lit "day_of_week"))) []); (nd (CSet (Some (Tok RSET 124 TNone))) (Tok LSET 110 TNone) [(nd CInt (Tok INT 111 (TInt 2)) []); (nd CInt (Tok INT 114 (TInt 3)) []); (nd CInt (Tok INT 117 (TInt 4)) []); (nd CInt (Tok INT 120 (TInt 5)) []); (nd CInt (Tok INT 123 (TInt 6)) [])])])])].
Proof. vm_compute. reflexivity. Qed.
(** hgpl/test/test_parsing.py 817 *)
Example parsing_test_hgabac_paper_case_5 : all_true [
  parses (lit """cs_course"" IN user.enrolled_in AND connect.ip_octet_1 = 192 AND connect.ip_octet_2 = 168 AND object.object_type = ""periodical""") (nd CBoolOp (Tok BOOL_OP 90 (TStr (lit "AND"))) [(nd CBoolOp (Tok BOOL_OP 61 (TStr (lit "AND"))) [(nd CBoolOp (Tok BOOL_OP 32 (TStr (lit "AND"))) [(nd COp (Tok OP 12 (TStr (lit "IN"))) [(nd CString (Tok STRING 0 (TStr (lit "cs_course"))) []); (nd CUsr (Tok USR_ATT 15 (TStr (lit "enrolled_in"))) [])]); (nd COp (Tok OP 55 (TStr (lit "="))) [(nd CCon (Tok CON_ATT 36 (TStr (lit "ip_octet_1"))) []); (nd CInt (Tok INT 57 (TInt 192)) [])])]); (nd COp (Tok OP 84 (TStr (lit "="))) [(nd CCon (Tok CON_ATT 65 (TStr (lit "ip_octet_2"))) []); (nd CInt (Tok INT 86 (TInt 168)) [])])]); (nd COp (Tok OP 113 (TStr (lit "="))) [(nd CObj (Tok OBJ_ATT 94 (TStr (lit "object_type"))) []); (nd CString (Tok STRING 115 (TStr (lit "periodical"))) [])])])].
Proof. vm_compute. reflexivity. Qed.
(** hgpl/test/test_semantics.py 63 *)
Example semantics_test_simp_ok_atts : all_true [
  passes (lit "env.a = ""cat"" and env.a != ""dog"" or 1.234 = env.b and 5.4234 != env.b");
  passes (lit "env.a > 5 and env.a < 1.234 or -1 >= env.a and -0.123 <= env.a or env.a = 0 and env.a != 123.123");
  passes (lit "env.a = {1,2,3} and env.a != {} or {""cat"", ""dog""} subset env.a and env.a subset {1, 1.234}");
  passes (lit "{1,2,3} = env.a and {} != env.a or env.b in {1, 1.234}");
  passes (lit "env.a = NULL or env.a != NULL and NULL = env.b and NULL != env.b");
  passes (lit """cat"" in env.a and 1 in env.b and 1.234 in env.b and NULL in env.c")].
Proof. vm_compute. reflexivity. Qed.
(** hgpl/test/test_semantics.py 78 *)
Example semantics_test_ok_ops : all_true [
  passes (lit "1 > 1.235 or 1.234 < 0 or 6 >= -1.234 or 0.034 <= -10 or 100 = 0.0101 or -100.100 != -100");
  passes (lit "1 > 12 or 1 < 0 or 6 >= -1 or 34 <= -10 or 100 = 101 or -100 != -100");
  passes (lit "1.12 > 1.235 or 1.234 < 0.0 or 6.0 >= -1.234 or 0.034 <= -10.10 or 100.0101 = 0.0101 or -100.100 != -100.01");
  passes (lit """cat"" = ""dog"" or ""cat"" != ""dog""");
  passes (lit "NULL = NULL and NULL != NULL");
  passes (lit "{} = {123} or {1,2,3} != {""a"", ""b"", ""c""}");
  passes (lit "1 IN {1,2,3} or 1.234 IN {1.1, 2.2, 3.3} or ""cat"" in {} or NULL in {NULL, 1, ""dog""}");
  passes (lit "{} SUBSET {1} or {""cat""} SUBSET {""cat"", ""dog""} or {1,2,3} SUBSET {1.1, 2.2}")].
Proof. vm_compute. reflexivity. Qed.
(** hgpl/test/test_semantics.py 98 *)
Example semantics_test_simp_att_type_errors : all_true [
  checks (lit "env.a = ""cat"" and env.a < 5 or env.b > ""cat"" and env.b = 5.5 and env.c > NULL and env.d <= NULL") 3 1 [AttCheck; NumCheck] ResError;
  checks (lit "env.a >= {} or env.a != 5 and env.b <= {1,2} or env.b > ""dog""") 1 1 [AttCheck; NumCheck] ResError;
  checks (lit "env.a != {""a""} and env.a < 1.123 or env.b > 1.234 and env.b >= ""cat""") 1 1 [AttCheck; NumCheck] ResError;
  checks (lit "5.5 = env.b or ""cat"" = env.a and 5 < env.a or ""cat"" != env.b") 0 2 [AttCheck] ResWarn;
  checks (lit "{} >= env.a or ""dog"" != env.b or 5 != env.a and {1,2} <= env.b") 0 2 [AttCheck] ResWarn;
  checks (lit "1.123 < env.a or 1.234 > env.b and ""cat"" = env.b or NULL != env.a") 0 2 [AttCheck] ResWarn;
  checks (lit "{} in env.a and {1} in env.b and {1.2, 2.1} in env.c") 3 0 [InCheck] ResError].
Proof. vm_compute. reflexivity. Qed.
(** hgpl/test/test_semantics.py 115 *)
Example semantics_test_op_subset_type_errors : all_true [
  checks (lit """cat"" SUBSET 5 and ""dog"" SUBSET 1.2 or ""dan"" SUBSET {1,2,3} and ""bob"" SUBSET NULL or -123 SUBSET ""bob"" or 0.43 SUBSET ""alice"" and {1.2, 3.4, 5.6} SUBSET ""hello"" and NULL SUBSET ""world"" and ""string"" SUBSET ""string""") 9 0 [SubsetCheck] ResError;
  checks (lit "1234 SUBSET NULL and -123.34 SUBSET NULL or {1.23, 4.56, 6.3} SUBSET NULL and ""hello world"" SUBSET NULL or NULL SUBSET 1234 and  NULL SUBSET -123.34 or NULL SUBSET {1.23, 4.56, 6.3} and NULL SUBSET ""hello world"" and NULL SUBSET NULL") 9 0 [SubsetCheck] ResError;
  checks (lit "{} SUBSET 1 and {1} SUBSET 4.5 and {1,2} SUBSET ""cat"" and {1.1,2.2} SUBSET NULL or 1 SUBSET {""cat"",""dog""} and 0.123 SUBSET {1.2} and ""string"" SUBSET {NULL} and NULL SUBSET {}") 8 0 [SubsetCheck] ResError].
Proof. vm_compute. reflexivity. Qed.
(** hgpl/test/test_semantics.py 129 *)
Example semantics_test_op_in_type_errors : all_true [
  checks (lit """cat"" IN 5 and ""dog"" IN 1.2 or ""bob"" IN NULL or -123 IN ""bob"" or 0.43 IN ""alice"" and {1.2, 3.4, 5.6} IN ""hello"" and NULL IN ""world"" and ""string"" IN ""string""") 8 0 [InCheck] ResError;
  checks (lit "1234 IN NULL and -123.34 IN NULL or {1.23, 4.56, 6.3} IN NULL and ""hello world"" IN NULL or NULL IN 1234 and  NULL IN -123.34 and NULL IN ""hello world"" and NULL IN NULL") 8 0 [InCheck] ResError;
  checks (lit "{} IN 1 and {1} IN 4.5 and {1,2} IN ""cat"" and {1.1,2.2} IN NULL and {""a""} IN {""b""}") 5 0 [InCheck] ResError].
Proof. vm_compute. reflexivity. Qed.
(** hgpl/test/test_semantics.py 140 *)
Example semantics_test_op_eq_type_errors : all_true [
  checks (lit """cat"" = 5 and ""dog"" != 1.2 or ""dan"" = {1,2,3} and ""bob"" != NULL or -123 = ""bob"" or 0.43 != ""alice"" and {1.2, 3.4, 5.6} = ""hello"" and NULL != ""world""") 8 0 [EqCheck] ResError;
  checks (lit "1234 = NULL and -123.34 = NULL or {1.23, 4.56, 6.3} != NULL and ""hello world"" != NULL or NULL = 1234 and  NULL = -123.34 or NULL != {1.23, 4.56, 6.3} and NULL != ""hello world""") 8 0 [EqCheck] ResError;
  checks (lit "{} = 1 and {1} != 4.5 and {1,2} = ""cat"" and {1.1,2.2} != NULL or 1 = {""cat"",""dog""} and 0.123 != {1.2} and ""string"" = {NULL} and NULL != {}") 8 0 [EqCheck] ResError].
Proof. vm_compute. reflexivity. Qed.
(** hgpl/test/test_semantics.py 152 *)
Example semantics_test_op_num_type_errors : all_true [
  checks (lit """cat"" <= 5 and ""dog"" >= 1.2 or ""dan"" < {1,2,3} and ""bob"" > NULL or -123 > ""bob"" or 0.43 < ""alice"" and {1.2, 3.4, 5.6} >= ""hello"" and NULL <= ""world"" and ""string"" > ""string""") 9 0 [NumCheck] ResError;
  checks (lit "1234 <= NULL and -123.34 >= NULL or {1.23, 4.56, 6.3} < NULL and ""hello world"" > NULL or NULL <= 1234 and  NULL >= -123.34 or NULL < {1.23, 4.56, 6.3} and NULL > ""hello world"" and NULL < NULL") 9 0 [NumCheck] ResError;
  checks (lit "{} > 1 and {1} < 4.5 and {1,2} >= ""cat"" and {1.1,2.2} <= NULL or 1 < {""cat"",""dog""} and 0.123 > {1.2} and ""string"" >= {NULL} and NULL <= {} and {1,2,3} > {""a"", ""b"", ""c""}") 9 0 [NumCheck] ResError].
Proof. vm_compute. reflexivity. Qed.
(** hgpl/test/test_semantics.py 164 *)
Example semantics_test_hgabac_paper_ex_a : all_true [
  passes (lit "user.id IN {5, 72, 4, 6, 4} OR user.id = object.owner")].
Proof. vm_compute. reflexivity. Qed.
(** hgpl/test/test_semantics.py 168 *)
Example semantics_test_hgabac_paper_ex_b : all_true [
  passes (lit "object.required_perms SUBSET user.perms AND user.age >= 18")].
Proof. vm_compute. reflexivity. Qed.
(** hgpl/test/test_semantics.py 172 *)
Example semantics_test_hgabac_paper_ex_c : all_true [
  passes (lit "user.admin OR (user.role = ""doctor"" AND user.id != object.patient)")].
Proof. vm_compute. reflexivity. Qed.
(** hgpl/test/test_semantics.py 176 *)
Example semantics_test_hgabac_paper_case_1 : all_true [
  passes (lit """undergrad"" IN user.user_type AND ((object.object_type = ""book"" AND NOT object.restricted) OR (object.object_type = ""course"" AND user.enrolled_in IN object.req_course))")].
Proof. vm_compute. reflexivity. Qed.
(** hgpl/test/test_semantics.py 181 *)
Example semantics_test_hgabac_paper_case_2 : all_true [
  passes (lit """grad"" IN user.user_type AND (object.object_type = ""periodical"" OR (object.object_type =""course"" AND object.req_course IN user.teaching))")].
Proof. vm_compute. reflexivity. Qed.
(** hgpl/test/test_semantics.py 186 *)
Example semantics_test_hgabac_paper_case_3 : all_true [
  passes (lit """faculty"" IN user.user_type AND(object.object_type IN {""book"", ""periodical"", ""course""} OR (object.object_type = ""archive"" AND object.depart IN user.depart))")].
Proof. vm_compute. reflexivity. Qed.
(** hgpl/test/test_semantics.py 191 *)
Example semantics_test_hgabac_paper_case_4 : all_true [
  passes (lit """staff"" IN user.user_type AND env.time_of_day_hour >= 8 AND env.time_of_day_hour <= 16 AND env.day_of_week IN {2, 3, 4, 5, 6}")].
Proof. vm_compute. reflexivity. Qed.
(** hgpl/test/test_semantics.py 196 *)
Example semantics_test_hgabac_paper_case_5 : all_true [
  passes (lit """cs_course"" IN user.enrolled_in AND connect.ip_octet_1 = 192 AND connect.ip_octet_2 = 168 AND object.object_type = ""periodical""")].
Proof. vm_compute. reflexivity. Qed.
(** hgpl/test/test_ast.py 114 *)
Example ast_test_enocde_decode_hgabac_paper_ex_a : all_true [
  round_trips (lit "user.id IN {5, 72, 4, 6, 4} OR user.id = object.owner")].
Proof. vm_compute. reflexivity. Qed.
(** hgpl/test/test_ast.py 117 *)
Example ast_test_enocde_decode_hgabac_paper_ex_b : all_true [
  round_trips (lit "object.required_perms SUBSET user.perms AND user.age >= 18")].
Proof. vm_compute. reflexivity. Qed.
(** hgpl/test/test_ast.py 120 *)
Example ast_test_enocde_decode_hgabac_paper_ex_c : all_true [
  round_trips (lit "user.admin OR (user.role = ""doctor"" AND user.id != object.patient)")].
Proof. vm_compute. reflexivity. Qed.
(** hgpl/test/test_ast.py 123 *)
Example ast_test_enocde_decode_hgabac_paper_ex_c_with_parn_inverted : all_true [
  round_trips (lit "(user.admin OR user.role = ""doctor"") AND user.id != object.patient")].
Proof. vm_compute. reflexivity. Qed.
(** hgpl/test/test_ast.py 126 *)
Example ast_test_enocde_decode_hgabac_paper_case_1 : all_true [
  round_trips (lit """undergrad"" IN user.user_type AND ((object.object_type = ""book"" AND NOT object.restricted) OR (object.object_type = ""course"" AND user.enrolled_in IN object.req_course))")].
Proof. vm_compute. reflexivity. Qed.
(** hgpl/test/test_ast.py 131 *)
Example ast_test_enocde_decode_hgabac_paper_case_2 : all_true [
  round_trips (lit """grad"" IN user.user_type AND (object.object_type = ""periodical"" OR (object.object_type =""course"" AND object.req_course IN user.teaching))")].
Proof. vm_compute. reflexivity. Qed.
(** hgpl/test/test_ast.py 136 *)
Example ast_test_enocde_decode_hgabac_paper_case_3 : all_true [
  round_trips (lit """faculty"" IN user.user_type AND(object.object_type IN {""book"", ""periodical"", ""course""} OR (object.object_type = ""archive"" AND object.depart IN user.depart))")].
Proof. vm_compute. reflexivity. Qed.
(** hgpl/test/test_ast.py 141 *)
Example ast_test_enocde_decode_hgabac_paper_case_4 : all_true [
  round_trips (lit """staff"" IN user.user_type AND env.time_of_day_hour >= 8 AND env.time_of_day_hour <= 16 AND env.day_of_week IN {2, 3, 4, 5, 6}")].
Proof. vm_compute. reflexivity. Qed.
(** hgpl/test/test_ast.py 146 *)
Example ast_test_enocde_decode_hgabac_paper_case_5 : all_true [
  round_trips (lit """cs_course"" IN user.enrolled_in AND connect.ip_octet_1 = 192 AND connect.ip_octet_2 = 168 AND object.object_type = ""periodical""")].
Proof. vm_compute. reflexivity. Qed.
(** hgpl/test/test_interpreting.py 20 *)
Definition test_types : list (str * symtype) :=
  [((lit "user.id"), ST_INT);
   ((lit "object.owner"), ST_INT);
   ((lit "object.required_perms"), ST_SET);
   ((lit "user.perms"), ST_SET);
   ((lit "user.age"), ST_INT);
   ((lit "user.admin"), ST_BOOL);
   ((lit "user.role"), ST_STRING);
   ((lit "object.patient"), ST_INT);
   ((lit "user.user_type"), ST_SET);
   ((lit "object.object_type"), ST_STRING);
   ((lit "object.restricted"), ST_BOOL);
   ((lit "user.enrolled_in"), ST_SET);
   ((lit "object.req_course"), ST_SET);
   ((lit "user.teaching"), ST_SET);
   ((lit "object.depart"), ST_SET);
   ((lit "user.depart"), ST_SET);
   ((lit "env.time_of_day_hour"), ST_INT);
   ((lit "env.day_of_week"), ST_INT);
   ((lit "connect.ip_octet_1"), ST_INT);
   ((lit "connect.ip_octet_2"), ST_INT);
   ((lit "connect.ip_octet_3"), ST_INT);
   ((lit "connect.ip_octet_4"), ST_INT);
   ((lit "user.string"), ST_STRING);
   ((lit "user.float"), ST_FLOAT);
   ((lit "user.int"), ST_INT);
   ((lit "user.set"), ST_SET)].
Definition test_vals : list (str * pyval) :=
  [((lit "user.id"), (VInt 1337));
   ((lit "object.owner"), (VInt 1337));
   ((lit "object.required_perms"), (VSet [(VInt 1); (VInt 5); (VInt 3)]));
   ((lit "user.perms"), (VSet [(VInt 2); (VInt 5); (VInt 4); (VInt 3); (VInt 0); (VInt 1)]));
   ((lit "user.age"), (VInt 30));
   ((lit "user.admin"), (VBool true));
   ((lit "user.role"), (VStr (lit "admin")));
   ((lit "object.patient"), (VInt 1337));
   ((lit "user.user_type"), (VSet [(VStr (lit "admin")); (VStr (lit "grad")); (VStr (lit "staff"))]));
   ((lit "object.object_type"), (VStr (lit "book")));
   ((lit "object.restricted"), (VBool false));
   ((lit "user.enrolled_in"), (VSet [(VStr (lit "CS1032")); (VStr (lit "CS2034"))]));
   ((lit "object.req_course"), (VSet [(VStr (lit "CS4030")); (VStr (lit "CS2034"))]));
   ((lit "user.teaching"), (VSet [(VStr (lit "CS3090")); (VStr (lit "CS1032"))]));
   ((lit "object.depart"), (VSet [(VStr (lit "COMPSCI")); (VStr (lit "SOFTENG"))]));
   ((lit "user.depart"), (VSet [(VStr (lit "COMPSCI"))]));
   ((lit "env.time_of_day_hour"), (VInt 9));
   ((lit "env.day_of_week"), (VInt 4));
   ((lit "connect.ip_octet_1"), (VInt 192));
   ((lit "connect.ip_octet_2"), (VInt 168));
   ((lit "connect.ip_octet_3"), (VInt 1));
   ((lit "connect.ip_octet_4"), (VInt 110));
   ((lit "user.string"), (VStr (lit "hello world")));
   ((lit "user.float"), (VFloat (S754_finite false 7070651414971679 (-51))));
   ((lit "user.int"), (VInt 3));
   ((lit "user.set"), (VSet [(VInt 1); (VInt 2); (VInt 3)]))].
Definition evaluates (text : str) (want : tri) : bool :=
  match load_mixed (builder_new test_types) test_vals with
  | Ok b =>
      let '(h, tb) := build_table U b [] in
      match parse_text U text (-1) with
      | Ok (a, _) =>
          match snd (check U (checker_new a) 3) with
          | Returned _ =>
              match snd (evaluate U h (interp_new a) (Some tb) (Some 3)) with
              | Ok (Some (RV (VTri r))) => tri_eqb r want
              | _ => false
              end
          | _ => false
          end
      | Err _ => false
      end
  | Err _ => false
  end.
(** hgpl/test/test_interpreting.py 128 *)
Example interpreting_test_hgabac_paper_ex_a : all_true [
  evaluates (lit "user.id IN {5, 72, 4, 6, 4} OR user.id = object.owner") TRUE].
Proof. vm_compute. reflexivity. Qed.
(** hgpl/test/test_interpreting.py 134 *)
Example interpreting_test_hgabac_paper_ex_b : all_true [
  evaluates (lit "object.required_perms SUBSET user.perms AND user.age >= 18") TRUE].
Proof. vm_compute. reflexivity. Qed.
(** hgpl/test/test_interpreting.py 140 *)
Example interpreting_test_hgabac_paper_ex_c : all_true [
  evaluates (lit "user.admin OR (user.role = ""doctor"" AND user.id != object.patient)") TRUE].
Proof. vm_compute. reflexivity. Qed.
(** hgpl/test/test_interpreting.py 146 *)
Example interpreting_test_hgabac_paper_ex_c_with_parn_inverted : all_true [
  evaluates (lit "(user.admin OR user.role = ""doctor"") AND user.id != object.patient") FALSE].
Proof. vm_compute. reflexivity. Qed.
(** hgpl/test/test_interpreting.py 152 *)
Example interpreting_test_hgabac_paper_case_1 : all_true [
  evaluates (lit """undergrad"" IN user.user_type AND ((object.object_type = ""book"" AND NOT object.restricted) OR (object.object_type = ""course"" AND user.enrolled_in IN object.req_course))") FALSE].
Proof. vm_compute. reflexivity. Qed.
(** hgpl/test/test_interpreting.py 159 *)
Example interpreting_test_hgabac_paper_case_2 : all_true [
  evaluates (lit """grad"" IN user.user_type AND (object.object_type = ""periodical"" OR (object.object_type =""course"" AND object.req_course IN user.teaching))") FALSE].
Proof. vm_compute. reflexivity. Qed.
(** hgpl/test/test_interpreting.py 166 *)
Example interpreting_test_hgabac_paper_case_3 : all_true [
  evaluates (lit """faculty"" IN user.user_type AND(object.object_type IN {""book"", ""periodical"", ""course""} OR (object.object_type = ""archive"" AND object.depart IN user.depart))") FALSE].
Proof. vm_compute. reflexivity. Qed.
(** hgpl/test/test_interpreting.py 173 *)
Example interpreting_test_hgabac_paper_case_4 : all_true [
  evaluates (lit """staff"" IN user.user_type AND env.time_of_day_hour >= 8 AND env.time_of_day_hour <= 16 AND env.day_of_week IN {2, 3, 4, 5, 6}") TRUE].
Proof. vm_compute. reflexivity. Qed.
(** hgpl/test/test_interpreting.py 180 *)
Example interpreting_test_hgabac_paper_case_5 : all_true [
  evaluates (lit """cs_course"" IN user.enrolled_in AND connect.ip_octet_1 = 192 AND connect.ip_octet_2 = 168 AND object.object_type = ""periodical""") FALSE].
Proof. vm_compute. reflexivity. Qed.
(** hgpl/test/test_interpreting.py 187 *)
Example interpreting_test_sets_in : all_true [
  evaluates (lit """CS1032"" IN user.enrolled_in AND user.enrolled_in IN user.enrolled_in AND user.enrolled_in IN {""CS3090"", ""CS1032"", ""CS1234""}") TRUE].
Proof. vm_compute. reflexivity. Qed.
(** hgpl/test/test_interpreting.py 193 *)
Example interpreting_test_missing_att : all_true [
  evaluates (lit "user.not_an_existing_att_name = 42") UNDEF].
Proof. vm_compute. reflexivity. Qed.
