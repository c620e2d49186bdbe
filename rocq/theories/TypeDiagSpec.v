(** * TypeDiagSpec: what the type checker should say (specification) *)

From Coq Require Import NArith ZArith List Bool String.
From Verif Require Import PyBase PyNum Lexer Values Ast Grammar Syntax Symbols TypeCheck TypeSpec.
Import ListNotations.
Open Scope Z_scope.

(** The message about a comparison whose operands cannot be compared. *)
Inductive wrong : cmp -> operand -> operand -> string -> Prop :=
| wr_text o l r : op_class_of o = Ineq -> kind_of l = KText \/ kind_of r = KText ->
    wrong o l r "Type Error, strings can not be compared using inequality operations."
| wr_null o l r : op_class_of o = Ineq -> kind_of l <> KText -> kind_of r <> KText -> kind_of l = KNothing \/ kind_of r = KNothing ->
    wrong o l r "Type Error, NULL value can not be compared using inequality operations."
| wr_sets o l r : op_class_of o = Ineq -> In (kind_of l) [KColl; KNumber] -> In (kind_of r) [KColl; KNumber] -> kind_of l = KColl \/ kind_of r = KColl ->
    wrong o l r "Type Error, sets can not be compared using inequality operations."
| wr_eq_null o l r : op_class_of o = Equality -> kind_of l = KNothing \/ kind_of r = KNothing -> kind_of l <> kind_of r ->
    kind_of l <> KAttribute -> kind_of r <> KAttribute ->
    wrong o l r "Type Error, NULL value can only be compared with other NULL values and attributes."
| wr_eq_text o l r : op_class_of o = Equality -> kind_of l = KText \/ kind_of r = KText -> kind_of l <> kind_of r ->
    In (kind_of l) [KText; KColl; KNumber] -> In (kind_of r) [KText; KColl; KNumber] ->
    wrong o l r "Type Error, string values can only be compared with other string values and attributes."
| wr_eq_set o l r : op_class_of o = Equality -> kind_of l <> kind_of r -> In (kind_of l) [KColl; KNumber] -> In (kind_of r) [KColl; KNumber] ->
    wrong o l r "Type Error, sets can only be compared with other sets and attributes."
| wr_in_null o l r : op_class_of o = Member -> kind_of r = KNothing ->
    wrong o l r "Type Error, NULL value can only be used on the left hand side of IN operations."
| wr_in_set o l r : op_class_of o = Member -> kind_of r <> KNothing -> kind_of l = KColl ->
    wrong o l r "Type Error, set values can only be used on the right hand side of IN operations."
| wr_in_text o l r : op_class_of o = Member -> kind_of l <> KColl -> kind_of r = KText ->
    wrong o l r "Type Error, string value can only be used on the left hand side of IN operations."
| wr_in_int o l z : op_class_of o = Member -> kind_of l <> KColl ->
    wrong o l (OAtom (AInt z)) "Type Error, int value can only be used on the left hand side of IN operations."
| wr_in_float o l f : op_class_of o = Member -> kind_of l <> KColl ->
    wrong o l (OAtom (AFloat f)) "Type Error, float value can only be used on the left hand side of IN operations."
| wr_subset o l r : op_class_of o = Subset -> ~ In (kind_of l) [KColl; KAttribute] \/ ~ In (kind_of r) [KColl; KAttribute] ->
    wrong o l r "Type Error, only sets and attributes can be compared using the SUBSET operation.".

Section Names.
Variable U : unicode.

(** The message about attributes in a comparison that contradicts those before it; attributes are
    named by category and name in lower case. *)
Inductive dubious : operand -> operand -> str -> Prop :=
| du_both c n d m : dubious (OAtt c n) (OAtt d m)
    (lit "Possible type error with attributes " ++ att_key U (c, n) ++ lit " and " ++ att_key U (d, m)
     ++ lit ". Attributes compared with different types and each other")
| du_left c n r : kind_of r <> KAttribute -> dubious (OAtt c n) r
    (lit "Possible type error with attribute " ++ att_key U (c, n) ++ lit ". Attribute compared with different types.")
| du_right c n l : kind_of l <> KAttribute -> dubious l (OAtt c n)
    (lit "Possible type error with attribute " ++ att_key U (c, n) ++ lit ". Attribute compared with different types.").

(** An issue of a comparison and its message, given the comparisons before it. *)
Inductive remark (before : list (cmp * operand * operand)) (k : comparison) : issue * str -> Prop :=
| rm_error m : wrong (k_op k) (k_left k) (k_right k) m ->
    remark before k (Issue 3 (class_check (k_op k)) (t_pos (k_tok k)) (k_tok k) (k_ltok k) (k_rtok k), lit m)
| rm_warning m : ill_typed (k_op k) (k_left k) (k_right k) = false ->
    doubtful (inferred U before) (k_op k) (k_left k) (k_right k) = true -> dubious (k_left k) (k_right k) m ->
    remark before k (Issue 2 AttCheck (t_pos (k_tok k)) (k_tok k) (k_ltok k) (k_rtok k), m).

(** The issues of comparisons with their messages: one for each comparison that calls for one. *)
Inductive remarks : list (cmp * operand * operand) -> list comparison -> list (issue * str) -> Prop :=
| rs_nil before : remarks before [] []
| rs_said before k ks x xs : remark before k x -> remarks (before ++ [abstract k]) ks xs -> remarks before (k :: ks) (x :: xs)
| rs_silent before k ks xs : (forall x, ~ remark before k x) -> remarks (before ++ [abstract k]) ks xs -> remarks before (k :: ks) xs.

End Names.

(** What happens when check(level) ends with these issues. *)
Definition at_level (level : Z) (l : list (issue * str)) (r : option (issue * str)) : Prop :=
  match r with
  | None => forall x, In x l -> is_type (fst x) < level
  | Some x => exists l1 l2, l = l1 ++ x :: l2 /\ level <= is_type (fst x) /\ forall y, In y l1 -> is_type (fst y) < level
  end.
