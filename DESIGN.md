# Formal model of HGABAC (HGPL policy language, attribute certificates, authorities)

Source modelled: `/repo` (dservos/HGABAC at the pinned commit), Python 3. The code is
only read, never run. The model is in Rocq (Coq 8.16.1), in `rocq/theories`.
`properties.jsonl` has the statements in words, `MANIFEST.json` the theorems of each.

## Method

* Each Python function is a total Gallina function, mirrored branch by branch, with a
  comment giving the file and lines. Exceptions are values (`res A = Ok a | Err exc`).
* Unbounded loops and recursive descent use a fuel argument with an explicit `EFuel`
  error; theorems state that `EFuel` is unreachable (part of C01, C09, C11).
* Everything outside the repository is an explicit argument, never an axiom: Unicode
  character data (record `unicode`, consulted only for non-ASCII characters), RSA, SHA-256,
  bcrypt, the clock, random numbers, database contents, row order. Where a theorem needs a
  law of such an argument (for example "verification accepts what signing produced") the law
  is a named hypothesis of the theorem, and an example instantiates it.
* Specifications are separate from the model: declarative grammar (`Abnf.v`, `Grammar.v`, `Syntax.v`),
  lexeme relation (`LexSpec.v`), denotational semantics (`EvalSpec.v`), occurrence lists
  (`TypeSpec.v`), and the `*Spec.v` file of each other part. They use the model's data types
  but not its helper functions.
* Beside each theorem there is an `Example` with a concrete instance of its hypotheses.
* A property that is false of the faithful model is stated through its exact failure
  condition (an equivalence where possible) and through a `..._refuted` theorem with a
  witness found by computation.

* `RepoTests.v` runs the unit tests of `hgpl/test` on the model (80 test methods, 245 assertions; generated by
  `tools/gen_repo_tests.py`, which reads the test files as text). They test the model and are not
  counted as proofs.

* `PyTests.v` compares the hand-written parts of Python's library (`struct`, UTF-8, base64, `repr`, `int`,
  `float`, comparison of numbers, character classes, `configparser`) with the results CPython 3.11 gives on random
  arguments (written by `tools/gen_py_tests.py`, which runs only Python's own library; run once with 400 cases
  a table and committed with 25). Tests again, not proofs.

Files come in layers: model (`X.v`), specification (`XSpec.v`), lemmas (`XProofs*.v`) and
property theorems with `Print Assumptions` (`XProps*.v`).

## Data representation

| Python | model |
|---|---|
| `str` | `list N` of code points |
| `bytes`/`bytearray` | `list N`, each below 256 (`bytes_ok`) |
| `int` | `Z` (no 4300-digit limit of `int()`/`str()`) |
| `float` | `Coq.Floats.SpecFloat.spec_float` (pure inductive type, no primitive floats, no axioms); literals are correctly rounded quotients, comparison is exact on dyadic numbers |
| `dict` with string keys | association list in insertion order, first match |
| `set` | list of members, compared by mutual inclusion |
| exceptions | constructors of `exc` (`PyBase.v`) with the position for HGPL errors |
| AST object | `Node class token id result children`; mutation of `result` is a returned tree |
| `Symbol` objects | cells of a heap (`list symbol`); tables and evaluated nodes hold locations, so sharing and later changes are visible |
| decoded AST | a graph from ids to nodes (decoding can produce sharing and cycles) |
| database | record of row lists; row order of a query is an argument that permutes them |

## Code and model

| source | model | modelled | not modelled |
|---|---|---|---|
| `hgpl/lexing.py` | `Lexer.v`, `LexDiag.v`, `Show.v` | all of `Lexer`, `TokenType`, `Token.__eq__`; `LexDiag.v` adds the contents of errors and the state they leave (shown to be the same lexer, C108_same); `Show.v` has `__str__`, `__repr__` and `token_string` | |
| `hgpl/parsing.py` | `Parser.v`, `Diag.v` | all; `Diag.v` adds messages, tokens and rules of `ParserError` (shown to be the same parser, C106_same) | |
| `hgpl/ast.py` | `Values.v`, `Ast.v`, `AstCodec.v`, `Show.v`, `SymRepr.v` | `ASTResult`, node classes and ids, equality, node count, `ASTEncoder`, `__str__` and `__repr__` | |
| `hgpl/symbols.py` | `Values.v`, `Symbols.v`, `Show.v`, `SymRepr.v` | `Symbol`, `SymbolTable`, `SymbolTableBuilder`, `__str__`, `__repr__` | |
| `hgpl/semantics.py` | `TypeCheck.v`, `TypeDiag.v` | `TypeChecker`; `TypeDiag.v` repeats it with the messages (shown to be the same checker, C112_same) | `Optimizer` (an empty class) |
| `hgpl/interpreting.py` | `Interp.v`, `InterpDiag.v` | all of `Interpreter`; `InterpDiag.v` repeats it with the messages (shown to be the same interpreter, C113_same) | the node that warnings and errors carry |
| `hgpl/errors.py` | `Errors.v` | `near`, `__str__` of all errors, severity | |
| `hgaa/attcert.py` | `AttCert.v` (with `Struct.v`), `Issue.v` | all sections, signing, import/export in all formats, text, equality; the defaults of `ACInformation`, with clock and random number as arguments | |
| `hgaa/config.py` | `Config.v`, `Ini.v` | `get_conf` over parsed ini files, interpolation, built-in defaults; the reading of a file's text by `ConfigParser.read` | decoding the file's bytes by the locale |
| `hgaa/database.py` | `Config.v`, `Database.v`, `ToolsLog.v` | all, with its log records (same effects, C117_same) | SQLAlchemy beyond insertion, deletion and creation of tables; lengths of columns; failing connections; threads |
| `hgaa/schema/test` | `Database.v` | the example rows | |
| `hgaa/log.py` | `Config.v`, `Logging.v` | all: levels, loggers, handlers, start-up; `logging` of Python as far as used | formatting of a record; rotation by other programs |
| `hgaa/services/pauth.py`, `hgaa/schema/pauth.py` | `PAuth.v`, `PAuthLog.v`, `Tools.v` | `__init__`, `info`, `_check_cert`, `start_session`, `evaluate`, `trusted_attribute_authorities`, tables; `PAuthLog.v` repeats `start_session` and `evaluate` with their log records and the texts of their faults (same answers, C115_same, C116_same) | ladon argument conversion; what `evaluate` does behind the query that raises (the records of `__init__`, `info` and `trusted_attribute_authorities` are in `ToolsLog.v`) |
| `hgaa/services/aauth.py`, `hgaa/schema/aauth.py` | `AAuth.v`, `AAuthLog.v`, `Tools.v` | `__init__`, `info`, `attribute_request`, `_make_ac`, `_make_con_att_set`, tables, certificate files; `AAuthLog.v` repeats the request with its log records and the texts of its faults (same answers, C114_same) | ladon argument conversion; the durations in log records are given (the records of `__init__` and `info` are in `ToolsLog.v`) |
| `hgaa/tools.py` | `Tools.v`, `Database.v`, `ToolsLog.v` | command line, keys, passwords, building, populating and generating, with log records and printed texts | the text of the exceptions raised after a usage text |
| `hgaa/handler.py`, `hgaa/services/__init__.py` | `Tools.v` | services enabled, host and port | the server of ladon |
| both services together | `System.v` | requests to the two services one after another, changes of the attribute authority's database between them | requests served at the same time |
| `hgaa/clients/aauth.py`, `hgaa/clients/pauth.py` | `Clients.v`, `ClientsLog.v` | all, with the log records (same effects, C118_same) | JSONWSPClient of ladon |
| `hgpl/gui/demos.py` | `Demo.v` | the frame with all callbacks, the attribute dialog, the example policies and attributes | placing of widgets, wording of messages |
| `hgaa/clients/demos/aauth.py` | `AAuthDemo.v` | the frame with all callbacks, the certificate tree | placing of widgets, line breaks in boxes, times measured, which rows are left by an exception while the tree is built |
| `hgpl/test` | `RepoTests.v` | the tests of lexer, parser, type checker, encoder and interpreter | profiling |
| `hgaa/test`, `hgaa/clients/test` | - | - | round trips with random keys (proved in general, C33-C40), scripts against a running service |

`PyBase.v`, `PyNum.v` and `Struct.v` model the parts of Python used: ASCII and Unicode
classification, case conversion, numbers, `struct`, UTF-8 and base64 (the lenient decoder
of CPython's binascii).

## Plan and result per property

| id | what is modelled | how proved |
|---|---|---|
| C01, C06 | `Lexer.next/tokenize` over a suffix of the text | measure on the remaining text; case analysis of `next` |
| C02 | same, against an independent lexeme relation | induction on the token loop; determinism of the relation |
| C03, C04 | same | simulation between two runs; lay-out function and induction on lexemes |
| C05, C07 | lexer object state with `next` as a step | invariant, induction on calls |
| C108, C109 | the lexer with the contents of its errors and the state left by an exception, against an inductive relation of faults | both directions by running the loops on the parts of a fault; invariant and measure over sequences of calls |
| C110, C111 | printing of tokens, trees and tables; Python's text of a string is modelled with its escapes, of a float it is an argument (injective, of number characters, hypothesis `float_texts`) | every printed part is a prefix code; lines determine a tree by its levels |
| C112 | the type checker with the messages of its issues, specified by a table from operators and kinds of operands | the invariant of C14-C16; the table is shown to be a function |
| C113 | the interpreter with the messages of warnings and errors and the values warnings carry, specified by the list of events of a tree in the order they would happen, cut at the first exception | induction over the tree, with the results from C19; the grammar for where events come from; C113_any: induction over any tree with any results |
| C114 | the request as a writer of log records with faults that carry their text; bcrypt.hashpw is given beside checkpw and agrees with it where a theorem says so | refusals by cases of the request, granted requests through C51's inversion; files through C78 |
| C115, C116 | start_session and evaluate as writers of log records with faults that carry their text; REMOTE_ADDR may be missing; str() of an exception of Python is given | the loop over certificates by induction against the first that does not pass; the texts of policy errors from C106, C108, C112 and C11 |
| C117 | the functions of Database.v and Tools.v again as writers of log records (with the name of the logger) and printed texts; the names of the tables are an argument | erasure to the models without records; induction over services and sets; noninterference by comparing the options read by two runs |
| C118 | both clients again, with the records, the connections opened and the calls made in order | erasure to Clients.v; an inductive specification of what each operation records; induction over sequences of operations; noninterference by a relation on operations |
| C119 | the ini reader of the standard library line by line, as `hgaa/config.py` creates it | a declarative grammar of files in IniSpec.v and an equivalence with the reader by induction over the lines; write and read back for all plain configurations |
| C120 | the two services together (System.v): requests to either and changes of the attribute authority's database as events of one run | invariant over runs: each stored certificate with the authority's key has the signed bytes of one issued; with C38, C62 and the theorems on issuing it follows what it says; unforgeability is a hypothesis on each certificate sent, and the examples use a signature scheme that has it |
| C121 | the encoders and decoders of `hgaa/attcert.py` as for C34-C40 | CoverSpec.v says which certificates can arrive and when two agree in what is signed; writing any that can arrive and inverting the decoders gives the first, splitting two equal byte strings section by section the second; the rest follows with C38 and the runs of C120 |
| C122 | the interpreter as for C19, C20 and C57, symbol tables as for C29 | LawSpec.v has the rewriting relation and a truth value with attributes and comparisons as unknowns; each step keeps value, faults and kinds of warnings by the C19 meaning; the converse evaluates with a table made from an assignment |
| C123 | lexer, parser and interpreter as for C05, C19 and C76 | induction over the tree: tables are used only by attribute nodes; the nodes are the tokens (C76) and att_list are the attribute tokens (C05); for values, the meaning of C19 as a function of the attributes named |
| C124 | the request of C50-C54, `ACInformation.__init__` with the random number and the clock as arguments (`Issue.v`) | authentication, selection, address and encoding are each complete as well as sound; bounds on the printed numbers and base64 texts; the order of the chosen attributes is that of the model's `select`, since it determines the bytes that are signed |
| C125 | `repr()` of values, symbols and tables (`SymRepr.v`); the order of a set and the texts of floats are Python's (given) | the first character tells the kind of a value, and every text can be read back from its beginning; induction over lists |
| C08-C11 | recursive descent parser with fuel, against inductive grammar relations | soundness by induction on fuel, completeness by induction on derivations with explicit fuel bound; where a ParserError points: two runs with a common beginning agree while they stay in it, so a token that could follow would not have been refused |
| C106, C107 | the parser with the contents of its errors; what is awaited after a beginning of a policy is an inductive relation (`waits`) over the token grammar | induction on failing runs gives a state; two states with the same tokens give the same error because the parser is run on them with an odd token; which tokens can follow by C11's viability |
| C12 | printer + lexer + parser | composition of the lay-out theorem and C09 |
| C13 | id counter threaded through the parser | induction on fuel |
| C14-C17 | `TypeChecker` as a state-passing scan | induction on trees against declarative occurrence lists; for policies whose attribute names are lower-cased the same way alone and behind the category (`steady`; all ASCII names are, C14_ascii_steady; with others `check()` can crash, C17_other_names_refuted, and for one comparison does exactly then, C17_crash_iff) |
| C18 | `ASTResult` | case analysis |
| C19-C22, C27, C28, C57 | `Interpreter` as tree-updating evaluation with warnings | induction on trees against a denotational semantics |
| C23-C25 | operators on Python values | exact dyadic comparison, list/set reasoning |
| C26, C29, C30 | `Symbol`, `SymbolTable`, `SymbolTableBuilder` | refinement to a partial map, invariants over operation lists |
| C31-C33 | struct packing, UTF-8, base64, `ASTEncoder` | round trip lemmas, induction on trees, graph decoding; binary32 rounding is `SpecFloat.binary_round`, all NaNs are one |
| C71-C74 | lexer, parser, encoder, interpreter and type checker together | both texts and trees are reduced to the abstract policy, on which results, warnings and inferred types depend; soundness of the inferred types by case analysis of comparisons |
| C75, C76 | `ASTNode.__eq__`, `calc_num_nodes`, repeated `evaluate` | induction on trees and on call sequences; grammar induction for the tokens |
| C77-C82 | Python's `logging` (loggers, levels, handlers, propagation), `make_logger`, start-up of `hgaa.log`, level of Ladon | the path of a record and its handlers given by relations; invariant over operation sequences for kept lines; agreement of two runs for cleaned files |
| C83-C86 | the cache of engines, `populate_db`, `build_database`; SQLAlchemy sessions as insertion of rows with primary and foreign keys, objects remember whether they are stored | invariants over histories of calls; exact success conditions by case analysis |
| C87 | `float()` of a literal as exact rounding of an integer fraction | distances to all doubles compared as integers (units of 2^-1074) |
| C88-C90 | `tools.py` over the world of C83-C86, with files; bcrypt and RSA are arguments | exact meaning of command lines by an inductive relation; row arithmetic for generated ids; laws of bcrypt as hypotheses |
| C91, C92, C94 | `__init__` and `info` of the services, `handler.py` | exact conditions by case analysis over options; composition with C52 |
| C93, C95 | both clients; opening a service, key generation and replies are given with each call | invariants over sequences of calls; composition with C52 |
| C96 | `docs/HGPL_ABNF_V2.txt` as data over characters (`Abnf.v`), independent of lexer, parser and token grammar | both inclusions: accepted token lists are cut into texts of the rules, with the gaps between them (AbnfProofs2); derivations, by induction on their height, are read as lexemes in every context that does not carry on their last word (AbnfProofs3) |
| C97, C98, C100 | `hgpl/gui/demos.py` as a state machine over the modelled lexer, parser, checker and interpreter; events are button presses, typing and dialogs | invariant `phase` over all event sequences; composition with C01, C11, C14, C16, C17 and the evaluation theorems |
| C99 | the same; `float()`, `str()` of a float, set order and `repr()` of unusual text are parameters (`pytext`) | invariant that panel and table agree; reading of texts given by relations (`entered`, `stripped`, `parts`, `int_literal`) shown equal to the functions |
| C101, C102, C105 | `hgaa/clients/demos/aauth.py` as a state machine over the modelled client; services, key generation and attachments are given with each press | field lemmas per event, invariants over event sequences; what is sent by non-interference (`agree`); the request loop by induction on the calls; composition with C95, C52 |
| C103, C104 | the same with the modelled certificate; `datetime` is a parameter | the tree read back by path (`tree_shows`); invariants `window_fits` and the label |
| C34-C37, C58 | sections and body of a certificate | prefix round trip lemmas composed; exact failure conditions |
| C38-C40, C59 | signing and verified import; signature scheme is a record (`k_sign`, `k_verify`, `k_import`, `k_hash`) | laws `key_pair` and unforgeability as hypotheses |
| C41, C42, C60, C61 | validity, equality, text form, import of arbitrary input | case analysis, induction on attribute lists |
| C43-C49, C62, C63, C67 | `PolicyAuthority` over a database record | case analysis, loop invariants, invariant over request histories |
| C50-C54, C69, C70 | `AttributeAuthority` over a database record and certificate directory | case analysis, list lemmas, number printing and parsing |
| C68 | both authorities together | composition of C52 and C43 |
| C55, C65, C66 | `get_conf`, connection string, log level and file | case analysis over lookup order; induction for case conversion |
| C56, C64 | `HGPLError.near`, `__str__` | list arithmetic; composition with C06 |

## Assumptions made by the model

* Database: primary keys and NOT NULL are checked, foreign keys and column sizes are not
  (referential integrity is proved instead); a transaction is atomic; file output succeeds.
* Symbol values are the Python values listed in `Values.pyval`.
* The random 128-bit serials and session ids are inputs; nothing assumes they are unique.
* Hypotheses about libraries, each named in the theorem: an exported RSA key can be imported
  with the same passphrase (C91), a hash made by bcrypt passes its check (C89), bcrypt takes
  72 bytes into account (C89_long), ladon hands the arguments of a call on unchanged (C95).
* `rq_password = None` etc.: request fields that ladon may leave out are options.

## Trusted base

* Coq's kernel (8.16.1). `Print Assumptions` of every theorem in the manifest answers
  "Closed under the global context": no theorem uses an axiom.
* `coqchk` lists seven constants `Coq.ssr.ssrunder.Under_rel.*` as axioms of the loaded
  libraries. They belong to Coq's own ssreflect plugin files (loaded by the standard
  library's `Floats`/`Lia` files), and no theorem depends on them.
* The reading of Python, CPython library and SQLAlchemy semantics stated in the comments of
  the model files.

## Not modelled

* HTTP/SOAP transport (ladon), SQLAlchemy/MySQL internals, log output, XML export (the
  source raises for it), the window system.
* Python's recursion limit and memory limits, the 4300-digit limit of `int()`.
* NaN object identity inside containers (a NaN is never equal to anything in the model) and
  NaN payloads.

## Testing the theorems

`seeded/LOG.jsonl` records seeded bugs: an edit of a model definition, the claim it breaks,
and the theorems that no longer hold. Each was applied to a scratch copy, all dependent files
were rebuilt, and every failing proof was collected (a failing proof is replaced by an axiom in
the scratch copy so that later theorems can be checked, and theorems that then depend on it are
counted as failing too).
