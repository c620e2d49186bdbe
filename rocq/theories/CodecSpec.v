(** * CodecSpec: what the AST encoding can carry (independent of the encoder) *)

From Coq Require Import NArith ZArith List Bool Lia.
From Coq Require Import Floats.SpecFloat.
From Verif Require Import PyBase PyNum Lexer Values Ast AstCodec.
Import ListNotations.
Open Scope Z_scope.

(** ** Numbers *)

(** Exactly a single precision number: mantissa of at most 24 bits, exponent -149 .. 104.
    (NaN is excluded: it is not equal to itself.) *)
Definition single (f : pyfloat) : Prop :=
  match f with
  | S754_nan => False
  | S754_finite s _ _ =>
      exists m e, Z.pos m < 2 ^ 24 /\ -149 <= e <= 104 /\ float_eqb f (S754_finite s m e) = true
  | _ => True
  end.
(** Too large for single precision: half a unit above the largest number, 2^128 - 2^104. *)
Definition too_large (f : pyfloat) : Prop :=
  match f with
  | S754_finite _ m e => num_geb (NFloat (S754_finite false m e)) (NInt (2 ^ 128 - 2 ^ 103)) = true
  | _ => False
  end.

(** ** Trees *)

(** All nodes of a tree, a parent before its children. *)
Fixpoint subtrees (a : ast) : list ast := a :: flat_map subtrees (n_kids a).

(** A character that can be encoded. *)
Definition encodable (c : N) : Prop := (c < 55296 \/ 57343 < c)%N /\ (c < 1114112)%N.

Definition value_fits (t : token) : Prop :=
  match t_type t, t_val t with
  | INT, TInt z => - 2 ^ 31 <= z < 2 ^ 31
  | INT, _ => False
  | FLOAT, TFloat f => ~ too_large f
  | FLOAT, _ => False
  | _, TNone => True
  | _, TStr s => Z.of_nat (List.length s) <= 65535 /\ Forall encodable s
  | _, _ => False
  end.
Definition node_fits (n : ast) : Prop :=
  0 <= n_id n <= 65535 /\ 0 <= t_pos (n_tok n) <= 65535 /\ value_fits (n_tok n).
Definition fits (a : ast) : Prop :=
  Forall node_fits (subtrees a) /\ Z.of_nat (List.length (subtrees a)) <= 65535.

(** Values that come back equal. *)
Definition survives (t : token) : Prop :=
  match t_val t with
  | TNone => True
  | TStr s => s <> [] /\ Forall (fun c => (c < 128)%N) s
  | TInt _ => True
  | TFloat f => single f
  end.

(** What every constructor call and every lexer token guarantees: a BoolValNode has a
    string, a FLOAT token does not hold an int. *)
Definition buildable (n : ast) : Prop :=
  (n_cls n = CBoolVal -> exists s, t_val (n_tok n) = TStr s) /\
  (t_type (n_tok n) = FLOAT -> forall z, t_val (n_tok n) <> TInt z).

(** ** Object graphs *)

(** The tree one sees when following the children from the node with the given id. *)
Inductive denotes (g : graph) : Z -> ast -> Prop :=
| Denotes : forall i n ks, gassoc i g = Some n -> Forall2 (denotes g) (g_kids n) ks ->
    denotes g i (Node (g_cls n) (g_tok n) (g_id n) (g_result n) ks).

(** The class without the end token of a set, which is not transmitted. *)
Definition plain (c : nclass) : nclass := match c with CSet _ => CSet None | c => c end.

(** An int stays an int: [==] alone does not tell 1 from 1.0. *)
Definition same_kind (v w : tokval) : bool :=
  match v, w with
  | TNone, TNone | TStr _, TStr _ | TInt _, TInt _ | TFloat _, TFloat _ => true
  | _, _ => false
  end.

(** The same policy in a new object: equal values of the same kinds, same classes, types, positions, ids and
    children; results are the initial ones. *)
Fixpoint same_tree (U : unicode) (a b : ast) : Prop :=
  let 'Node c t i _ ks := a in
  let 'Node c' t' i' r' ks' := b in
  c' = plain c /\ i' = i /\ t_type t' = t_type t /\ t_pos t' = t_pos t /\
  tokval_eqb (t_val t) (t_val t') = true /\ same_kind (t_val t) (t_val t') = true /\
  init_result U c' t' = Ok r' /\
  (fix all (l m : list ast) : Prop :=
     match l, m with
     | [], [] => True
     | x :: l, y :: m => same_tree U x y /\ all l m
     | _, _ => False
     end) ks ks'.
