(** * PyBase: Python values used everywhere: strings, exceptions, characters.

    Python [str] is modelled as a list of code points.  Characters below 128 are
    classified exactly as CPython does; for all other characters the
    classification comes from an explicit record [unicode], so theorems
    quantified over that record hold for every version of the Unicode tables. *)

From Coq Require Import NArith ZArith List Bool Ascii String Lia.
Import ListNotations.
Open Scope N_scope.

Definition str := list N.
Definition bytes := list N.

(** Conversion of Coq string literals, used for constants in the model. *)
Definition lit (s : string) : str := map N_of_ascii (list_ascii_of_string s).

Fixpoint leqb {A} (e : A -> A -> bool) (a b : list A) : bool :=
  match a, b with
  | [], [] => true
  | x :: a', y :: b' => e x y && leqb e a' b'
  | _, _ => false
  end.

Definition str_eqb : str -> str -> bool := leqb N.eqb.

(** Python exceptions raised by the modelled code.  Messages are not modelled;
    [HGPLError] subclasses keep their [pos] (hgpl/errors.py 13-20). *)
Inductive exc : Type :=
| ELexer (pos : Z)          (* LexerError *)
| EParser (pos : Z)         (* ParserError *)
| ETypeChecker (lvl pos : Z) (* TypeCheckerError / TypeCheckerWarning, with severity *)
| EInterp (pos : Z)         (* InterpreterError *)
| EInterpWarning (pos : Z)  (* InterpreterWarning raised by evaluate *)
| EAttribute | EIndex | EValue | EType | EKey | EStruct | EOverflow
| EUnicodeDecode | EUnicodeEncode | EBinascii
| EIntegrity                (* sqlalchemy.exc.IntegrityError at commit *)
| EInvalidRequest           (* sqlalchemy.exc.InvalidRequestError *)
| EClientFault | EServerFault
| EGeneric                  (* plain Exception(...) *)
| EFuel.                    (* artefact of the model, proved unreachable *)

Inductive res (A : Type) : Type :=
| Ok (a : A)
| Err (e : exc).
Arguments Ok {A} a.
Arguments Err {A} e.

Definition bind {A B} (m : res A) (f : A -> res B) : res B :=
  match m with Ok a => f a | Err e => Err e end.
Notation "x <- m ;; k" := (bind m (fun x => k))
  (at level 61, m at next level, right associativity).
Notation "' p <- m ;; k" := (bind m (fun p => k))
  (at level 61, p pattern, m at next level, right associativity).

Fixpoint mapM {A B} (f : A -> res B) (l : list A) : res (list B) :=
  match l with
  | [] => Ok []
  | x :: r => y <- f x ;; ys <- mapM f r ;; Ok (y :: ys)
  end.

(** ** Unicode data for characters outside ASCII *)

Record unicode : Type := {
  u_space : N -> bool;            (* str.isspace of one character *)
  u_alpha : N -> bool;            (* str.isalpha *)
  u_digit : N -> bool;            (* str.isdigit *)
  u_decimal : N -> option N;      (* value int() gives the character, None: ValueError *)
  u_lower : str -> str;           (* str.lower of a string with a non-ASCII character *)
  u_upper : str -> str            (* str.upper of such a string *)
}.

Definition asc (c : N) : bool := c <? 128.
Definition is_ascii (s : str) : bool := forallb asc s.

(** [str.isspace] on one character: ASCII 9-13, 28-31 and 32. *)
Definition isspace (U : unicode) (c : N) : bool :=
  if asc c then ((9 <=? c) && (c <=? 13)) || ((28 <=? c) && (c <=? 32))
  else u_space U c.

Definition up (c : N) : bool := (65 <=? c) && (c <=? 90).
Definition low (c : N) : bool := (97 <=? c) && (c <=? 122).

Definition isalpha (U : unicode) (c : N) : bool :=
  if asc c then up c || low c else u_alpha U c.

Definition isdigit (U : unicode) (c : N) : bool :=
  if asc c then (48 <=? c) && (c <=? 57) else u_digit U c.

(** Decimal value of a character as used by [int(...)] and [float(...)]. *)
Definition digit_val (U : unicode) (c : N) : option N :=
  if asc c then (if (48 <=? c) && (c <=? 57) then Some (c - 48) else None)
  else u_decimal U c.

Definition lower_c (c : N) : N := if up c then c + 32 else c.
Definition upper_c (c : N) : N := if low c then c - 32 else c.

(** [str.lower] / [str.upper]; context dependent outside ASCII, hence an oracle
    on whole strings there. *)
Definition py_lower (U : unicode) (s : str) : str :=
  if is_ascii s then map lower_c s else u_lower U s.
Definition py_upper (U : unicode) (s : str) : str :=
  if is_ascii s then map upper_c s else u_upper U s.

(** A concrete instance for examples: no non-ASCII character has any class. *)
Definition ascii_only : unicode := {|
  u_space := fun _ => false; u_alpha := fun _ => false; u_digit := fun _ => false;
  u_decimal := fun _ => None; u_lower := fun s => s; u_upper := fun s => s |}.
