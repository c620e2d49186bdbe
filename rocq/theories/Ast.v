(** * Ast: model of the node classes of hgpl/ast.py *)

From Coq Require Import NArith ZArith List Bool String.
From Verif Require Import PyBase PyNum Lexer Values.
Import ListNotations.
Open Scope Z_scope.

(** Node classes, hgpl/ast.py 120-324.  A SetNode also keeps its end token. *)
Inductive nclass : Type :=
| CAst | COp | CBoolOp | CBoolVal | CVal | CInt | CFloat | CString | CNull
| CSet (end_token : option token) | CNot | CAtt | CUsr | CObj | CAdm | CCon | CEnv.

(** A node object: class, token, id, current result ([None] is Python's None)
    and children (hgpl/ast.py 124-139).  Children are always a list here, which
    is what every constructor call in the parser and decoder builds. *)
Inductive ast : Type :=
| Node (cls : nclass) (tok : token) (id : Z) (result : option rval) (kids : list ast).

Definition n_cls (n : ast) := let 'Node c _ _ _ _ := n in c.
Definition n_tok (n : ast) := let 'Node _ t _ _ _ := n in t.
Definition n_id (n : ast) := let 'Node _ _ i _ _ := n in i.
Definition n_result (n : ast) := let 'Node _ _ _ r _ := n in r.
Definition n_kids (n : ast) := let 'Node _ _ _ _ k := n in k.

Definition set_result (r : option rval) (n : ast) : ast :=
  let 'Node c t i _ k := n in Node c t i r k.

(** hgpl/ast.py 141-151, left() and right(). *)
Definition n_left (n : ast) : option ast := nth_error (n_kids n) 0.
Definition n_right (n : ast) : option ast := nth_error (n_kids n) 1.

(** hgpl/ast.py 177-185, calc_num_nodes. *)
Fixpoint num_nodes (n : ast) : nat :=
  let 'Node _ _ _ _ k := n in S (fold_right (fun m a => num_nodes m + a)%nat 0%nat k).

(** hgpl/ast.py 211-220, __eq__: tokens and children, position by position;
    class, id, result and end token are not compared. *)
Fixpoint ast_eqb (a b : ast) {struct a} : bool :=
  let 'Node _ ta _ _ ka := a in
  let 'Node _ tb _ _ kb := b in
  token_eqb ta tb &&
  (fix go (l m : list ast) : bool :=
     match l, m with
     | [], [] => true
     | x :: l', y :: m' => ast_eqb x y && go l' m'
     | _, _ => false
     end) ka kb.

Definition val_of_tok (t : token) : option rval :=
  match t_val t with
  | TNone => None
  | TStr s => Some (RV (VStr s))
  | TInt z => Some (RV (VInt z))
  | TFloat f => Some (RV (VFloat f))
  end.

Section WithUnicode.
Variable U : unicode.

(** The [result] a constructor leaves in a new node: BoolValNode (hgpl/ast.py
    235-242; AttributeError when the token value is not a str), ValNode and
    subclasses (246-248), NullValNode (272-274), None otherwise (126). *)
Definition init_result (c : nclass) (t : token) : res (option rval) :=
  match c with
  | CBoolVal =>
      match t_val t with
      | TStr s =>
          let u := py_upper U s in
          Ok (Some (RV (VTri (if str_eqb u (lit "TRUE") then TRUE
                              else if str_eqb u (lit "FALSE") then FALSE else UNDEF))))
      | _ => Err EAttribute
      end
  | CVal | CInt | CFloat | CString => Ok (val_of_tok t)
  | CNull => Ok (Some (RV VNull))
  | _ => Ok None
  end.

(** Node constructor (hgpl/ast.py 124-139): [last] is the class attribute
    [ASTNode._last_id] before the call; the new value is returned. *)
Definition mk_node (c : nclass) (t : token) (kids : list ast) (last : Z) : res (ast * Z) :=
  r <- init_result c t ;;
  Ok (Node c t (last + 1) r kids, last + 1).

End WithUnicode.
