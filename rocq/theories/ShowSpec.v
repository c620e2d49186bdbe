(** * ShowSpec: what the printed forms of tokens and trees are to show *)

From Coq Require Import NArith ZArith List Bool String SpecFloat.
From Verif Require Import PyBase PyNum Lexer Values Ast AttCert Demo CodecSpec.
Import ListNotations.
Open Scope Z_scope.

(** ** Reading a tree off its printed lines *)

(** The nodes from the root, each before its children, with their depths. *)
Fixpoint preorder (d : nat) (a : ast) : list (nat * ast) :=
  let 'Node _ _ _ _ ks := a in (d, a) :: flat_map (preorder (S d)) ks.

(** Trees of the same form with the same types and values of tokens, and with related results. *)
Inductive alike (R : option rval -> option rval -> Prop) : ast -> ast -> Prop :=
| Alike c t i r ks c' t' i' r' ks' :
    t_type t = t_type t' -> t_val t = t_val t' -> R r r' -> Forall2 (alike R) ks ks' ->
    alike R (Node c t i r ks) (Node c' t' i' r' ks').

(** ** What repr() tells *)

(** Zeros and empty texts. *)
Definition empty_value (v : tokval) : Prop :=
  v = TNone \/ v = TStr [] \/ v = TInt 0 \/ exists s, v = TFloat (SpecFloat.S754_zero s).

Definition same_value (v w : tokval) : Prop := v = w \/ (empty_value v /\ empty_value w).
(** All positions before the text are one. *)
Definition same_pos (p q : Z) : Prop := p = q \/ (p < 0 /\ q < 0).
Definition same_token (t u : token) : Prop :=
  t_type t = t_type u /\ same_pos (t_pos t) (t_pos u) /\ same_value (t_val t) (t_val u).

(** The class and, of a set, the token at its end. *)
Inductive same_class : nclass -> nclass -> Prop :=
| sc_same c : same_class c c
| sc_set t u : same_token t u -> same_class (CSet (Some t)) (CSet (Some u)).

(** Trees that differ in ids, results, kinds of empty values and positions before the text only. *)
Inductive same_code : ast -> ast -> Prop :=
| SameCode c t i r ks c' t' i' r' ks' :
    same_class c c' -> same_token t t' -> Forall2 same_code ks ks' ->
    same_code (Node c t i r ks) (Node c' t' i' r' ks').

(** ** Python's texts *)

(** Characters of Python. *)
Definition code_point (c : N) : Prop := (c < 1114112)%N.
Definition value_text (v : tokval) : str := match v with TStr s => s | _ => [] end.
Definition tokens_of (n : ast) : list token :=
  n_tok n :: match n_cls n with CSet (Some e) => [e] | _ => [] end.
Definition chars_ok (a : ast) : Prop :=
  forall n t, In n (subtrees a) -> In t (tokens_of n) -> Forall code_point (value_text (t_val t)).

(** Texts of floats: one for each number, of letters, digits, dots and signs, and not of digits alone. *)
Definition number_char (c : N) : Prop := (c = 43 \/ c = 45 \/ c = 46 \/ 48 <= c <= 57 \/ 97 <= c <= 122)%N.
Definition digit_char (c : N) : Prop := (c = 45 \/ 48 <= c <= 57)%N.
Record float_texts (P : pytext) : Prop := {
  ft_chars : forall f, Forall number_char (show_float P f);
  ft_mark : forall f, ~ Forall digit_char (show_float P f);
  ft_inj : forall f g, show_float P f = show_float P g -> f = g
}.

(** ** Trees of policies *)

(** Tokens that differ in the sign of a zero only. *)
Definition equal_token (t u : token) : Prop :=
  t_type t = t_type u /\ t_pos t = t_pos u /\
  (t_val t = t_val u \/ exists s s', t_val t = TFloat (S754_zero s) /\ t_val u = TFloat (S754_zero s')).
Inductive equal_class : nclass -> nclass -> Prop :=
| ec_same c : equal_class c c
| ec_set t u : equal_token t u -> equal_class (CSet (Some t)) (CSet (Some u)).
(** Trees that differ in ids, results and signs of zeros only. *)
Inductive equal_code : ast -> ast -> Prop :=
| EqualCode c t i r ks c' t' i' r' ks' :
    equal_class c c' -> equal_token t t' -> Forall2 equal_code ks ks' ->
    equal_code (Node c t i r ks) (Node c' t' i' r' ks').
