(** * Values: Python values, evaluation results and attribute symbols *)

From Coq Require Import NArith ZArith List Bool.
From Verif Require Import PyBase PyNum Lexer.
Import ListNotations.

(** hgpl/ast.py 10-13, class ASTResult. *)
Inductive tri : Type := TRUE | FALSE | UNDEF.

(** hgpl/ast.py 72-76, ASTResult.__eq__ on two results. *)
Definition tri_eqb (a b : tri) : bool :=
  match a, b with
  | TRUE, TRUE | FALSE, FALSE | UNDEF, UNDEF => true
  | _, _ => false
  end.

(** hgpl/ast.py 16-20, from_bool. *)
Definition tri_of_bool (b : bool) : tri := if b then TRUE else FALSE.

(** hgpl/ast.py 42-48, __not__ (tri_not 23-24). *)
Definition tri_not (a : tri) : tri :=
  if tri_eqb a TRUE then FALSE else if tri_eqb a FALSE then TRUE else UNDEF.

(** hgpl/ast.py 50-59, __and__. *)
Definition tri_and (a b : tri) : tri :=
  if tri_eqb b FALSE || tri_eqb a FALSE then FALSE
  else if tri_eqb b UNDEF || tri_eqb a UNDEF then UNDEF
  else TRUE.

(** hgpl/ast.py 61-70, __or__. *)
Definition tri_or (a b : tri) : tri :=
  if tri_eqb a TRUE || tri_eqb b TRUE then TRUE
  else if tri_eqb a UNDEF || tri_eqb b UNDEF then UNDEF
  else FALSE.

(** hgpl/ast.py 81-88, __bool__ / truth. *)
Definition tri_truth (a : tri) : bool := tri_eqb a TRUE.

(** Python values that can be attribute values or constants of a policy.
    [VNull] is an ASTNullVal object (hgpl/ast.py 263-268).  A Python set is the
    list of its members.  Other Python objects are not modelled. *)
Inductive pyval : Type :=
| VNone | VInt (z : Z) | VFloat (f : pyfloat) | VStr (s : str) | VBool (b : bool)
| VTri (t : tri) | VNull | VList (l : list pyval) | VSet (l : list pyval).

(** Numbers, with bool as a subclass of int. *)
Definition as_num (v : pyval) : option num :=
  match v with
  | VInt z => Some (NInt z)
  | VFloat f => Some (NFloat f)
  | VBool b => Some (NInt (if b then 1 else 0))
  | _ => None
  end.

(** Python [==].  int/float/bool compare numerically, str by content, lists
    element-wise, sets as sets; ASTResult and ASTNullVal only equal their own
    kind (hgpl/ast.py 72-76, 264-265). *)
Fixpoint py_eq (a b : pyval) {struct a} : bool :=
  match a, b with
  | VNone, VNone => true
  | VStr x, VStr y => str_eqb x y
  | VTri x, VTri y => tri_eqb x y
  | VNull, VNull => true
  | VList l, VList m =>
      (fix go (l m : list pyval) : bool :=
         match l, m with
         | [], [] => true
         | x :: l', y :: m' => py_eq x y && go l' m'
         | _, _ => false
         end) l m
  | VSet l, VSet m =>
      forallb (fun x => existsb (fun y => py_eq x y) m) l
      && forallb (fun y => existsb (fun x => py_eq x y) l) m
  | _, _ =>
      match as_num a, as_num b with
      | Some x, Some y => num_eqb x y
      | _, _ => false
      end
  end.

(** [hash(v)] succeeds: ASTResult and ASTNullVal define [__eq__] without
    [__hash__], list and set are mutable. *)
Definition hashable (v : pyval) : bool :=
  match v with
  | VNone | VInt _ | VFloat _ | VStr _ | VBool _ => true
  | VTri _ | VNull | VList _ | VSet _ => false
  end.

(** [bool(v)]. *)
Definition truthy (v : pyval) : bool :=
  match v with
  | VNone => false
  | VInt z => num_truth (NInt z)
  | VFloat f => num_truth (NFloat f)
  | VStr s => match s with [] => false | _ => true end
  | VBool b => b
  | VTri t => tri_truth t
  | VNull => true
  | VList l | VSet l => match l with [] => false | _ => true end
  end.

Definition isinst_num (v : pyval) : bool :=
  match v with VInt _ | VFloat _ | VBool _ => true | _ => false end.
Definition isinst_str (v : pyval) : bool := match v with VStr _ => true | _ => false end.
Definition isinst_set (v : pyval) : bool := match v with VSet _ => true | _ => false end.
Definition isinst_list (v : pyval) : bool := match v with VList _ => true | _ => false end.
Definition isinst_null (v : pyval) : bool := match v with VNull => true | _ => false end.
Definition isinst_tri (v : pyval) : bool := match v with VTri _ => true | _ => false end.

(** [x in l] for a list: first match by [==]. *)
Definition in_list (x : pyval) (l : list pyval) : bool := existsb (fun y => py_eq x y) l.

(** [set(l)]: TypeError if a member is not hashable. *)
Definition py_set (l : list pyval) : res (list pyval) :=
  if forallb hashable l then Ok l else Err EType.

(** [x in s] for a set: the member is hashed first, also for an empty set.
    (The special case of a set looked up in a set never occurs here.) *)
Definition in_set (x : pyval) (s : list pyval) : res bool :=
  if hashable x then Ok (in_list x s) else Err EType.

(** hgpl/symbols.py 8-15, class SymbolType.  [ST_NONE] is Python's None, which
    [switch_type] can store in a symbol. *)
Inductive symtype : Type :=
| ST_INT | ST_FLOAT | ST_STRING | ST_BOOL | ST_UNKNOWN | ST_SET | ST_CUSTOM | ST_NONE.

Definition symtype_val (t : symtype) : N :=
  match t with
  | ST_INT => 1 | ST_FLOAT => 2 | ST_STRING => 3 | ST_BOOL => 4
  | ST_UNKNOWN => 5 | ST_SET => 6 | ST_CUSTOM => 7 | ST_NONE => 0
  end%N.
Definition symtype_eqb (a b : symtype) : bool := (symtype_val a =? symtype_val b)%N.

(** hgpl/symbols.py 28-45, the fields of a Symbol. *)
Record symbol : Type := Sym {
  sy_name : str; sy_att_name : str; sy_att_type : ttype;
  sy_type : symtype; sy_value : pyval
}.

(** Symbol objects are shared by tables and evaluated nodes and can be changed, so
    they are referred to by their index in a list of all Symbol objects. *)
Definition loc := nat.

(** Values stored in [ASTNode.result]: a Python value or a Symbol. *)
Inductive rval : Type := RV (v : pyval) | RSym (l : loc).
