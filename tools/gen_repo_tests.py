"""Writes rocq/theories/RepoTests.v from the unit tests in /repo/hgpl/test.

The test files are read as text with Python's ast module; nothing of /repo is imported or run.
Floats of the tests are written as the exact binary64 numbers.
"""
import ast
import math

SRC = '/repo/hgpl/test/'


def coq_str(s):
    if all(32 <= ord(c) < 127 for c in s):
        return '(lit "%s")' % s.replace('"', '""')
    return '[%s]%%N' % '; '.join(str(ord(c)) for c in s)


def coq_z(n):
    return str(n) if n >= 0 else '(%d)' % n


def coq_float(x):
    neg = 'true' if math.copysign(1, x) < 0 else 'false'
    if x == 0:
        return '(S754_zero %s)' % neg
    m, e = math.frexp(abs(x))
    m = int(m * 2 ** 53)
    return '(S754_finite %s %d (%d))' % (neg, m, e - 53)


def coq_tokval(v):
    if v is None:
        return 'TNone'
    if isinstance(v, str):
        return '(TStr %s)' % coq_str(v)
    if isinstance(v, int):
        return '(TInt %s)' % coq_z(v)
    return '(TFloat %s)' % coq_float(v)


def coq_pyval(v):
    if isinstance(v, bool):
        return '(VBool %s)' % str(v).lower()
    if isinstance(v, str):
        return '(VStr %s)' % coq_str(v)
    if isinstance(v, int):
        return '(VInt %s)' % coq_z(v)
    if isinstance(v, float):
        return '(VFloat %s)' % coq_float(v)
    assert isinstance(v, tuple) and v[0] == 'set'
    return '(VSet [%s])' % '; '.join(coq_pyval(x) for x in v[1])


CLASSES = {'BoolOpNode': 'CBoolOp', 'OpNode': 'COp', 'NotNode': 'CNot', 'BoolValNode': 'CBoolVal', 'IntValNode': 'CInt',
           'FloatValNode': 'CFloat', 'StringValNode': 'CString', 'NullValNode': 'CNull', 'UsrAttNode': 'CUsr',
           'ObjAttNode': 'CObj', 'AdmAttNode': 'CAdm', 'ConAttNode': 'CCon', 'EnvAttNode': 'CEnv'}


class Term(str):
    """A Coq term."""


def ev(e, env):
    if isinstance(e, ast.Constant):
        return e.value
    if isinstance(e, ast.UnaryOp) and isinstance(e.op, ast.USub):
        return -ev(e.operand, env)
    if isinstance(e, ast.BinOp) and isinstance(e.op, ast.Add):
        return ev(e.left, env) + ev(e.right, env)
    if isinstance(e, ast.Name):
        return env[e.id]
    if isinstance(e, ast.List):
        return [ev(x, env) for x in e.elts]
    if isinstance(e, ast.Tuple):
        return tuple(ev(x, env) for x in e.elts)
    if isinstance(e, ast.Set):
        return ('set', [ev(x, env) for x in e.elts])
    if isinstance(e, ast.Dict):
        return [(ev(k, env), ev(v, env)) for k, v in zip(e.keys, e.values)]
    if isinstance(e, ast.Attribute):
        return Term(e.attr)
    if isinstance(e, ast.Call) and isinstance(e.func, ast.Name):
        args = [ev(x, env) for x in e.args]
        assert not e.keywords
        if e.func.id == 'chr':
            return chr(*args)
        if e.func.id == 'Token':
            ty, pos, val = args + [None] * (3 - len(args))
            return Term('(Tok %s %s %s)' % (ty, coq_z(-1 if pos is None else pos), coq_tokval(val)))
        if e.func.id == 'SetNode':
            return Term('(nd (CSet (Some %s)) %s [%s])' % (args[1], args[0], '; '.join(args[2] if len(args) > 2 else [])))
        if e.func.id in CLASSES:
            return Term('(nd %s %s [%s])' % (CLASSES[e.func.id], args[0], '; '.join(args[1:])))
    raise ValueError(ast.dump(e))


def methods(name):
    tree = ast.parse(open(SRC + name).read())
    for c in tree.body:
        if isinstance(c, ast.ClassDef):
            for f in c.body:
                if isinstance(f, ast.FunctionDef):
                    yield c.name, f


def calls(f, names):
    """The calls self.NAME(...) of a test in order, with evaluated arguments."""
    env = {}
    for s in f.body:
        if isinstance(s, ast.Assign) and isinstance(s.targets[0], ast.Name):
            try:
                env[s.targets[0].id] = ev(s.value, env)
            except ValueError:
                pass
        elif isinstance(s, ast.Expr) and isinstance(s.value, ast.Call) and isinstance(s.value.func, ast.Attribute):
            c = s.value
            if c.func.attr in names:
                args = []
                for x in c.args:
                    try:
                        args.append(ev(x, env))
                    except KeyError:
                        args.append(None)
                yield c.func.attr, args


out = []


def example(name, lines, what, line):
    out.append('(** %s %d *)' % (what, line))
    out.append('Example %s : all_true [\n  %s].\nProof. vm_compute. reflexivity. Qed.' % (name, ';\n  '.join(lines)))


count = 0
# lexing
for cls, f in methods('test_lexing.py'):
    if not f.name.startswith('test_') or cls != 'TestLexer':
        continue
    ls = ['lexes %s [%s] %s' % (coq_str(a[0]), '; '.join(a[1]), coq_str(a[2])) for _, a in calls(f, ['_check_policy'])]
    env, excs = {}, {}
    for s in f.body:
        if isinstance(s, ast.Assign) and isinstance(s.targets[0], ast.Name) and not ls:
            try:
                env[s.targets[0].id] = ev(s.value, env)
            except (ValueError, KeyError):
                pass
        if isinstance(s, ast.With):
            assert s.items[0].context_expr.args[0].id == 'LexerError'
            excs[s.items[0].optional_vars.id] = [env[s.body[0].value.args[0].id], None, None]
        if excs and isinstance(s, ast.Expr) and s.value.func.attr == 'assertEqual':
            want, got = s.value.args
            assert got.value.attr == 'exception'
            excs[got.value.value.id][{'pos': 1, 'token': 2}[got.attr]] = (ev(want, {}),)
    for p, pos, tok in excs.values():
        t = 'None' if tok[0] is None else '(Some %s)' % tok[0]
        ls.append('lex_fails %s %s %s' % (coq_str(p), coq_z(pos[0]), t))
    if ls:
        count += len(ls)
        example('lexing_' + f.name, ls, 'hgpl/test/test_lexing.py', f.lineno)
    elif f.name == 'test_basic_functions':
        # One line per call of next(): what it gives, the tokens so far and their names.
        env, ls, text, toks = {}, [], None, None
        steps = 0
        for s in f.body:
            if isinstance(s, ast.Assign):
                try:
                    env[s.targets[0].id] = ev(s.value, env)
                except ValueError:
                    steps += 1 if ast.unparse(s.value) == 'lex.next()' else 0
            elif isinstance(s, ast.AugAssign):
                env[s.target.id] += ev(s.value, env)
            elif s.value.func.attr == 'append':
                env[s.value.func.value.id].append(ev(s.value.args[0], env))
            elif ast.unparse(s.value.args[0]) == 'token':
                want = ev(s.value.args[1], env)
                ls.append('gives %s %d %s' % (coq_str(env['policy']), steps, 'None' if want is None else '(Some %s)' % want))
            elif ast.unparse(s.value.args[0]) == 'lex.current()':
                ls.append('current %s %d %s' % (coq_str(env['policy']), steps, ev(s.value.args[1], env)))
            elif ast.unparse(s.value.args[0]) == 'lex.toke_list()':
                ls.append('so_far %s %d [%s]' % (coq_str(env['policy']), steps, '; '.join(ev(s.value.args[1], env))))
            elif ast.unparse(s.value.args[0]) == 'lex.token_string()':
                ls.append('names_so_far %s %d %s' % (coq_str(env['policy']), steps, coq_str(ev(s.value.args[1], env))))
        count += len(ls)
        example('lexing_' + f.name, ls, 'hgpl/test/test_lexing.py', f.lineno)
# tokens
for cls, f in methods('test_lexing.py'):
    if cls == 'TestToken' and f.name == 'test_eq':
        env, ls = {}, []
        for s in f.body:
            if isinstance(s, ast.Assign):
                env[s.targets[0].id] = ev(s.value, env)
            else:
                a, b = [ev(x, env) for x in s.value.args]
                ls.append('%s (token_eqb %s %s)' % ({'assertEqual': 'id', 'assertNotEqual': 'negb'}[s.value.func.attr], a, b))
        count += len(ls)
        example('token_' + f.name, ls, 'hgpl/test/test_lexing.py', f.lineno)
# parsing
for cls, f in methods('test_parsing.py'):
    if f.name.startswith('test_'):
        ls = []
        for n, a in calls(f, ['_check_using_policy', '_check_error_using_policy']):
            if n == '_check_using_policy':
                ls.append('parses %s %s' % (coq_str(a[0]), a[1]))
            else:
                ls.append('parse_fails %s %s %s %s' % (coq_str(a[0]), a[1], coq_z(a[2]), coq_str(a[3])))
        count += len(ls)
        example('parsing_' + f.name, ls, 'hgpl/test/test_parsing.py', f.lineno)
# type checker
CHECKS = {'att_check': 'AttCheck', 'num_check': 'NumCheck', 'eq_check': 'EqCheck', 'in_check': 'InCheck', 'subset_check': 'SubsetCheck'}
for cls, f in methods('test_semantics.py'):
    if f.name.startswith('test_'):
        ls = []
        for n, a in calls(f, ['_check_policy_passed', '_check_policy_errors']):
            if n == '_check_policy_passed':
                ls.append('passes %s' % coq_str(a[0]))
            else:
                ch = (a[3],) if isinstance(a[3], str) else a[3]
                res = {'ERROR': 'ResError', 'WARN': 'ResWarn', 'PASS': 'ResPass'}[a[4]]
                ls.append('checks %s %d %d [%s] %s' % (coq_str(a[0]), a[1], a[2], '; '.join(CHECKS[c] for c in ch), res))
        if ls:
            count += len(ls)
            example('semantics_' + f.name, ls, 'hgpl/test/test_semantics.py', f.lineno)
# encoder
for cls, f in methods('test_ast.py'):
    if f.name.startswith('test_'):
        ls = ['round_trips %s' % coq_str(a[0]) for _, a in calls(f, ['_encode_decode_test'])]
        if ls:
            count += len(ls)
            example('ast_' + f.name, ls, 'hgpl/test/test_ast.py', f.lineno)
# interpreter
for cls, f in methods('test_interpreting.py'):
    if f.name == '_build_symbol_table':
        ds = [ev(s.value, {}) for s in f.body if isinstance(s, ast.Assign) and isinstance(s.value, ast.Dict)]
        out.append('(** hgpl/test/test_interpreting.py %d *)' % f.lineno)
        out.append('Definition test_types : list (str * symtype) :=\n  [%s].' % ';\n   '.join('(%s, ST_%s)' % (coq_str(k), v) for k, v in ds[0]))
        out.append('Definition test_vals : list (str * pyval) :=\n  [%s].' % ';\n   '.join('(%s, %s)' % (coq_str(k), coq_pyval(v)) for k, v in ds[1]))
        out.append('''Definition evaluates (text : str) (want : tri) : bool :=
  match load_mixed (builder_new test_types) test_vals with
  | Ok b =>
      let '(h, tb) := build_table U b [] in
      match parse_text U text (-1) with
      | Ok (a, _) =>
          match snd (check U (checker_new a) 3) with
          | Returned _ =>
              match snd (evaluate U h (interp_new a) (Some tb) (Some 3)) with
              | Ok (Some (RV (VTri r))) => tri_eqb r want
              | _ => false
              end
          | _ => false
          end
      | Err _ => false
      end
  | Err _ => false
  end.''')
    elif f.name.startswith('test_'):
        ls = ['evaluates %s %s' % (coq_str(a[0]), a[2]) for _, a in calls(f, ['_evaluate_policy'])]
        count += len(ls)
        example('interpreting_' + f.name, ls, 'hgpl/test/test_interpreting.py', f.lineno)

HEAD = '''(** * RepoTests: the unit tests of hgpl/test, run on the model

    Written by tools/gen_repo_tests.py, which reads the test files as text.  These are tests of the
    model, not proofs of properties: each Example is one test method, with the policies and the
    expected tokens, errors, trees, issues and results found there.  Floats are the exact numbers
    that Python makes of the literals. *)

From Coq Require Import NArith ZArith List Bool String.
From Coq Require Import Floats.SpecFloat.
From Verif Require Import PyBase PyNum Lexer Values Ast Parser Symbols LexDiag Diag TypeCheck Interp AstCodec.
Import ListNotations.
Open Scope Z_scope.

Notation U := ascii_only.
Definition all_true (l : list bool) : Prop := forallb (fun b => b) l = true.
Definition nd (c : nclass) (t : token) (kids : list ast) : ast := Node c t 0 None kids.

Fixpoint tokens_eqb (a b : list token) : bool :=
  match a, b with [], [] => true | x :: a, y :: b => token_eqb x y && tokens_eqb a b | _, _ => false end.
Definition type_str (t : token) : str := type_name (t_type t).
(** test_lexing.py, _check_policy: tokenize(), and next() until there is no token. *)
Fixpoint nexts (fuel : nat) (l : lexer) : option (list token) :=
  match fuel with
  | O => None
  | S f => match ld_next U l with
           | (Gave (Some t), l') => option_map (cons t) (nexts f l')
           | (Gave None, _) => Some []
           | (Raised _, _) => None
           end
  end.
Definition lexes (text : str) (want : list token) (names : str) : bool :=
  match ld_tokenize U (lexer_init text) with
  | (None, l) => tokens_eqb want (lx_toks l) && str_eqb names (token_string (map type_str (lx_toks l)))
  | _ => false
  end &&
  match nexts (List.length text + 2) (lexer_init text) with
  | Some l => tokens_eqb want (lx_toks (lexer_init text) ++ l)
  | None => false
  end.
Definition lex_fails (text : str) (pos : Z) (tok : option token) : bool :=
  match ld_tokenize U (lexer_init text) with
  | (Some (RSyn e), _) =>
      (le_pos e =? pos) && match le_tok e, tok with Some a, Some b => token_eqb a b | None, None => true | _, _ => false end
  | _ => false
  end.
(** test_lexing.py, test_basic_functions: after [n] calls of next(). *)
Fixpoint steps (n : nat) (l : lexer) : lexer := match n with O => l | S n => steps n (snd (ld_next U l)) end.
Definition gives (text : str) (n : nat) (want : option token) : bool :=
  match fst (ld_next U (steps (pred n) (lexer_init text))), want with
  | Gave (Some a), Some b => token_eqb a b
  | Gave None, None => true
  | _, _ => false
  end.
Definition current (text : str) (n : nat) (want : token) : bool :=
  match rev (lx_toks (steps n (lexer_init text))) with t :: _ => token_eqb t want | [] => false end.
Definition so_far (text : str) (n : nat) (want : list token) : bool := tokens_eqb want (lx_toks (steps n (lexer_init text))).
Definition names_so_far (text : str) (n : nat) (want : str) : bool :=
  str_eqb want (token_string (map type_str (lx_toks (steps n (lexer_init text))))).
(** test_parsing.py; node classes are compared too, which == does not do. *)
Definition class_eqb (a b : nclass) : bool :=
  match a, b with
  | CSet (Some x), CSet (Some y) => token_eqb x y
  | CSet None, CSet None => true
  | _, _ => class_val a =? class_val b
  end.
Fixpoint classes_eqb (a b : ast) {struct a} : bool :=
  let 'Node ca _ _ _ ka := a in
  let 'Node cb _ _ _ kb := b in
  class_eqb ca cb &&
  (fix go (l m : list ast) : bool :=
     match l, m with [], [] => true | x :: l', y :: m' => classes_eqb x y && go l' m' | _, _ => false end) ka kb.
Definition parses (text : str) (want : ast) : bool :=
  match parse_text U text (-1) with Ok (a, _) => ast_eqb want a && classes_eqb want a | Err _ => false end.
Definition parse_fails (text : str) (tok : token) (pos : Z) (rule : str) : bool :=
  match lex_text U text with
  | Ok ts => match d_parse U ts (-1) with
             | DSyn e => (pe_pos e =? pos) && token_eqb tok (pe_tok e) && str_eqb rule (pe_rule e)
             | _ => false
             end
  | Err _ => false
  end.
(** test_semantics.py; check() raises at CRIT only. *)
Definition check_eqb (a b : check_name) : bool :=
  match a, b with
  | NumCheck, NumCheck | EqCheck, EqCheck | InCheck, InCheck | SubsetCheck, SubsetCheck | AttCheck, AttCheck => true
  | _, _ => false
  end.
Definition result_eqb (a b : tc_result) : bool :=
  match a, b with ResNone, ResNone | ResPass, ResPass | ResWarn, ResWarn | ResError, ResError => true | _, _ => false end.
Definition checks (text : str) (errors warnings : nat) (names : list check_name) (want : tc_result) : bool :=
  match parse_text U text (-1) with
  | Ok (a, _) =>
      match check U (checker_new a) 4 with
      | (c, Returned l) =>
          result_eqb want (get_result c) && (List.length (get_errors c) =? errors)%nat && (List.length (get_warnings c) =? warnings)%nat &&
          forallb (fun i => existsb (check_eqb (is_check i)) names) l
      | _ => false
      end
  | Err _ => false
  end.
Definition passes (text : str) : bool := checks text 0 0 [] ResPass.
(** test_ast.py *)
Fixpoint same_decoded (a : ast) (g : graph) (id : Z) {struct a} : bool :=
  let 'Node _ t _ _ kids := a in
  match gassoc id g with
  | None => false
  | Some n =>
      token_eqb t (g_tok n) &&
      (fix go (l : list ast) (m : list Z) : bool :=
         match l, m with [], [] => true | x :: l', y :: m' => same_decoded x g y && go l' m' | _, _ => false end) kids (g_kids n)
  end.
Definition round_trips (text : str) : bool :=
  match parse_text U text (-1) with
  | Ok (a, last) =>
      forallb (fun b64 => match encode a b64 with
                          | Ok b => match snd (decode U b b64 last) with Ok (g, root) => same_decoded a g root | Err _ => false end
                          | Err _ => false
                          end) [false; true]
  | Err _ => false
  end.

'''
open('/verif/rocq/theories/RepoTests.v', 'w').write(HEAD + '\n'.join(out) + '\n')
print(count, 'assertion groups', len([o for o in out if o.startswith('Example')]), 'tests')
