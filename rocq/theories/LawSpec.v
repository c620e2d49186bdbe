(** * LawSpec: rewriting policies (specification)

    When one policy may be written in place of another.  Nothing here refers to the lexer, the
    parser or the interpreter. *)

From Coq Require Import NArith ZArith List Bool String.
From Coq Require Import Floats.SpecFloat.
From Verif Require Import PyBase PyNum Lexer Values Syntax TypeSpec EvalSpec.
Import ListNotations.
Open Scope Z_scope.

Section Logic.
Variable U : unicode.

(** Attributes are the same if their full names are, up to case. *)
Definition full_key (c : cat) (n : str) : str := py_lower U (cat_word c ++ n).

(** The truth value of a policy when each attribute and each comparison is given one. *)
Section Truth.
Variable att : str -> tri.
Variable compare : cmp -> operand -> operand -> tri.
Fixpoint truth (p : pol) : tri :=
  match p with
  | PConst t => t
  | PAtt c n => att (full_key c n)
  | PCmp o x y => compare o x y
  | PNot q => knot (truth q)
  | PAnd q r => kand (truth q) (truth r)
  | POr q r => kor (truth q) (truth r)
  end.
End Truth.

(** The same for all truth values of attributes and comparisons. *)
Definition same_truth (p q : pol) : Prop := forall att compare, truth att compare p = truth att compare q.

(** What NOT, AND and OR connect. *)
Inductive leaf : Type := LConst (t : tri) | LAtt (key : str) | LCmp (o : cmp) (x y : operand).
Fixpoint leaves (p : pol) : list leaf :=
  match p with
  | PConst t => [LConst t]
  | PAtt c n => [LAtt (full_key c n)]
  | PCmp o x y => [LCmp o x y]
  | PNot q => leaves q
  | PAnd q r | POr q r => leaves q ++ leaves r
  end.
Definition same_leaves (p q : pol) : Prop := forall x, In x (leaves p) <-> In x (leaves q).

(** The laws of logic in use: every one keeps the leaves. *)
Inductive law : pol -> pol -> Prop :=
| law_not_not p : law (PNot (PNot p)) p
| law_not_and p q : law (PNot (PAnd p q)) (POr (PNot p) (PNot q))
| law_not_or p q : law (PNot (POr p q)) (PAnd (PNot p) (PNot q))
| law_and_comm p q : law (PAnd p q) (PAnd q p)
| law_or_comm p q : law (POr p q) (POr q p)
| law_and_assoc p q r : law (PAnd (PAnd p q) r) (PAnd p (PAnd q r))
| law_or_assoc p q r : law (POr (POr p q) r) (POr p (POr q r))
| law_and_idem p : law (PAnd p p) p
| law_or_idem p : law (POr p p) p
| law_and_or p q r : law (PAnd p (POr q r)) (POr (PAnd p q) (PAnd p r))
| law_or_and p q r : law (POr p (PAnd q r)) (PAnd (POr p q) (POr p r)).

(** The comparison with its sides exchanged. *)
Definition mirrored (o : cmp) : option cmp :=
  match o with
  | OpGt => Some OpLt | OpLt => Some OpGt | OpGe => Some OpLe | OpLe => Some OpGe
  | OpEq => Some OpEq | OpNe => Some OpNe | OpIn | OpSubset => None
  end.
(** The comparison that holds when the other does not. *)
Definition opposite (o : cmp) : option cmp :=
  match o with
  | OpGt => Some OpLe | OpLe => Some OpGt | OpLt => Some OpGe | OpGe => Some OpLt
  | OpEq => Some OpNe | OpNe => Some OpEq | OpIn | OpSubset => None
  end.
Definition is_eq (o : cmp) : bool := match o with OpEq | OpNe => true | _ => false end.

Definition is_nan (o : operand) : bool := match o with OAtom (AFloat S754_nan) => true | _ => false end.

(** Rewriting anywhere in a policy.  With [total] the opposite of an inequality may be used, which
    is wrong for NaN. *)
Inductive rewrites (total : bool) : pol -> pol -> Prop :=
| rw_logic p q : same_truth p q -> same_leaves p q -> rewrites total p q
| rw_mirror o o' x y : mirrored o = Some o' -> rewrites total (PCmp o x y) (PCmp o' y x)
| rw_opposite o o' x y : opposite o = Some o' ->
    is_eq o = true \/ total = true /\ is_nan x = false /\ is_nan y = false ->
    rewrites total (PNot (PCmp o x y)) (PCmp o' x y)
| rw_sym p q : rewrites total p q -> rewrites total q p
| rw_trans p q r : rewrites total p q -> rewrites total q r -> rewrites total p r
| rw_not p p' : rewrites total p p' -> rewrites total (PNot p) (PNot p')
| rw_and p p' q q' : rewrites total p p' -> rewrites total q q' -> rewrites total (PAnd p q) (PAnd p' q')
| rw_or p p' q q' : rewrites total p p' -> rewrites total q q' -> rewrites total (POr p q) (POr p' q').

(** A policy that is more than one constant or attribute. *)
Definition compound (p : pol) : Prop := match p with PConst _ | PAtt _ _ => False | _ => True end.

(** Policies without comparisons and constants. *)
Fixpoint of_attributes (p : pol) : Prop :=
  match p with
  | PConst _ | PCmp _ _ _ => False
  | PAtt _ _ => True
  | PNot q => of_attributes q
  | PAnd q r | POr q r => of_attributes q /\ of_attributes r
  end.
End Logic.

(** No attribute is NaN. *)
Definition no_nan (E : env) : Prop := forall c n ty, E c n <> Some (ty, VFloat S754_nan).
