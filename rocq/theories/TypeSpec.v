(** * TypeSpec: what the type checker should report (specification)

    Written on policies, without heaps, tables or checker state. *)

From Coq Require Import NArith ZArith List Bool String.
From Verif Require Import PyBase PyNum Lexer Values Ast Grammar Syntax Symbols TypeCheck.
Import ListNotations.
Open Scope Z_scope.

Section Names.
Variable U : unicode.

(** ** Attributes *)

(** The attributes of a policy, in the order they are written. *)
Definition operand_atts (o : operand) : list (cat * str) :=
  match o with OAtt c n => [(c, n)] | _ => [] end.
Fixpoint attributes (p : pol) : list (cat * str) :=
  match p with
  | PConst _ => []
  | PAtt c n => [(c, n)]
  | PCmp _ l r => operand_atts l ++ operand_atts r
  | PNot q => attributes q
  | PAnd q r | POr q r => attributes q ++ attributes r
  end.

Definition cat_word (c : cat) : str :=
  match c with
  | CatUser => lit "user." | CatObject => lit "object." | CatEnv => lit "env."
  | CatAdmin => lit "admin." | CatConnect => lit "connect."
  end.
(** Names are compared without case, categories are part of the name. *)
Definition att_key (a : cat * str) : str := cat_word (fst a) ++ py_lower U (snd a).
(** The names whose letters are lowered the same way behind the category as alone: all ASCII
    names, but not GREEK CAPITAL LETTER SIGMA, which is lowered by what stands before it. *)
Definition steady_name (a : cat * str) : Prop :=
  forall n, n = snd a \/ n = py_lower U (snd a) -> py_lower U (cat_word (fst a) ++ n) = att_key a.
Definition steady (l : list (cat * str)) : Prop := forall a, In a l -> steady_name a.
Definition same_att (a b : cat * str) : bool := str_eqb (att_key a) (att_key b).

(** Each element once, at its first place. *)
Definition mem (k : str) (l : list str) : bool := existsb (str_eqb k) l.
Fixpoint firsts (seen l : list str) : list str :=
  match l with
  | [] => []
  | k :: r => if mem k seen then firsts seen r else k :: firsts (k :: seen) r
  end.

(** ** Comparisons *)

(** A comparison with the tokens of its operator and operands. *)
Record comparison : Type := Comp {
  k_op : cmp; k_left : operand; k_right : operand; k_tok : token; k_ltok : token; k_rtok : token
}.
Definition pt_tok (p : ptree) : token := let 'PT _ t _ := p in t.

(** The comparisons of a syntax tree, in the order they are written, *)
Fixpoint comparisons (p : ptree) : list comparison :=
  match p with
  | PT CNot _ [k] => comparisons k
  | PT CBoolOp _ [l; r] => comparisons l ++ comparisons r
  | PT COp t [l; r] =>
      match abs_cmp (t_val t), abs_operand l, abs_operand r with
      | Some o, Some a, Some b => [Comp o a b t (pt_tok l) (pt_tok r)]
      | _, _, _ => []
      end
  | _ => []
  end.
(** and of a policy. *)
Fixpoint pol_comparisons (p : pol) : list (cmp * operand * operand) :=
  match p with
  | PConst _ | PAtt _ _ => []
  | PCmp o l r => [(o, l, r)]
  | PNot q => pol_comparisons q
  | PAnd q r | POr q r => pol_comparisons q ++ pol_comparisons r
  end.

Inductive op_class : Type := Ineq | Equality | Member | Subset.
Definition op_class_of (o : cmp) : op_class :=
  match o with
  | OpGt | OpLt | OpGe | OpLe => Ineq
  | OpEq | OpNe => Equality
  | OpIn => Member
  | OpSubset => Subset
  end.

(** ** Inferred types *)

(** The type of a constant; NULL has type UNKNOWN, an attribute none. *)
Definition const_type (o : operand) : option symtype :=
  match o with
  | OAtom (AInt _) => Some ST_INT | OAtom (AFloat _) => Some ST_FLOAT
  | OAtom (AStr _) => Some ST_STRING | OAtom ANull => Some ST_UNKNOWN
  | OSet _ => Some ST_SET | OAtt _ _ => None
  end.
(** The constants from which an operator's operand type is inferred. *)
Definition tells (o : cmp) (t : symtype) : bool :=
  match op_class_of o, t with
  | Equality, (ST_INT | ST_FLOAT | ST_STRING | ST_SET) => true
  | Ineq, (ST_INT | ST_FLOAT | ST_SET) => true
  | _, _ => false
  end.
(** What a comparison says about an attribute. *)
Definition told (o : cmp) (a : cat * str) (x y : operand) : option symtype :=
  match x, const_type y with
  | OAtt c n, Some t => if same_att (c, n) a && tells o t then Some t else None
  | _, _ => None
  end.
Definition evidence (a : cat * str) (k : cmp * operand * operand) : option symtype :=
  let '(o, l, r) := k in
  match told o a l r with Some t => Some t | None => told o a r l end.
(** The first comparison that says something decides. *)
Fixpoint inferred (ks : list (cmp * operand * operand)) (a : cat * str) : symtype :=
  match ks with
  | [] => ST_UNKNOWN
  | k :: r => match evidence a k with Some t => t | None => inferred r a end
  end.

(** ** Issues *)

Inductive okind : Type := KNumber | KText | KNothing | KColl | KAttribute.
Definition kind_of (o : operand) : okind :=
  match o with
  | OAtom (AInt _) | OAtom (AFloat _) => KNumber
  | OAtom (AStr _) => KText
  | OAtom ANull => KNothing
  | OSet _ => KColl
  | OAtt _ _ => KAttribute
  end.

(** Which operand kinds an operator cannot be used with. *)
Definition ill_typed (o : cmp) (l r : operand) : bool :=
  match op_class_of o, kind_of l, kind_of r with
  (* text and NULL are not ordered; sets are not, except against an attribute *)
  | Ineq, (KText | KNothing), _ | Ineq, _, (KText | KNothing) => true
  | Ineq, KAttribute, _ | Ineq, _, KAttribute => false
  | Ineq, KColl, _ | Ineq, _, KColl => true
  | Ineq, KNumber, KNumber => false
  (* constants of different kinds are not equal *)
  | Equality, KAttribute, _ | Equality, _, KAttribute => false
  | Equality, KNumber, KNumber | Equality, KText, KText
  | Equality, KNothing, KNothing | Equality, KColl, KColl => false
  | Equality, _, _ => true
  (* a set is not a member, an atom has none *)
  | Member, KColl, _ => true
  | Member, _, (KColl | KAttribute) => false
  | Member, _, _ => true
  | Subset, (KColl | KAttribute), (KColl | KAttribute) => false
  | Subset, _, _ => true
  end.

Definition type_eqb (a b : symtype) : bool :=
  match a, b with
  | ST_NONE, ST_NONE | ST_UNKNOWN, ST_UNKNOWN | ST_INT, ST_INT | ST_FLOAT, ST_FLOAT
  | ST_STRING, ST_STRING | ST_BOOL, ST_BOOL | ST_SET, ST_SET | ST_CUSTOM, ST_CUSTOM => true
  | _, _ => false
  end.
Definition numeric (t : symtype) : bool := match t with ST_INT | ST_FLOAT => true | _ => false end.
Definition clash (a b : symtype) : bool := negb (type_eqb a b) && negb (numeric a && numeric b).

(** Whether a comparison that is not ill typed contradicts the types [T] inferred so
    far: two attributes of different types, or an attribute of known type and a
    constant of another. *)
Definition doubtful (T : cat * str -> symtype) (o : cmp) (l r : operand) : bool :=
  match op_class_of o with
  | Ineq | Equality =>
      match l, r with
      | OAtt c n, OAtt d m => clash (T (c, n)) (T (d, m))
      | OAtt c n, x | x, OAtt c n =>
          match const_type x with
          | Some t => negb (type_eqb (T (c, n)) ST_UNKNOWN) && clash (T (c, n)) t
          | None => false
          end
      | _, _ => false
      end
  | _ => false
  end.

Definition class_check (o : cmp) : check_name :=
  match op_class_of o with Ineq => NumCheck | Equality => EqCheck | Member => InCheck | Subset => SubsetCheck end.

Definition abstract (k : comparison) : cmp * operand * operand := (k_op k, k_left k, k_right k).

(** The issue of a comparison, given those before it. *)
Definition issue_of (before : list (cmp * operand * operand)) (k : comparison) : list issue :=
  if ill_typed (k_op k) (k_left k) (k_right k)
  then [Issue 3 (class_check (k_op k)) (t_pos (k_tok k)) (k_tok k) (k_ltok k) (k_rtok k)]
  else if doubtful (inferred before) (k_op k) (k_left k) (k_right k)
  then [Issue 2 AttCheck (t_pos (k_tok k)) (k_tok k) (k_ltok k) (k_rtok k)]
  else [].
Fixpoint issues_after (before : list (cmp * operand * operand)) (ks : list comparison) : list issue :=
  match ks with
  | [] => []
  | k :: r => issue_of before k ++ issues_after (before ++ [abstract k]) r
  end.
Definition issues (ks : list comparison) : list issue := issues_after [] ks.

End Names.
