(** * EvalSpec: the three-valued meaning of a policy (specification) *)

From Coq Require Import NArith ZArith List Bool String Arith.
From Coq Require Import Floats.SpecFloat.
From Verif Require Import PyBase PyNum Lexer Values Syntax Interp.
Import ListNotations.
Open Scope Z_scope.

(** ** Strong Kleene logic: FALSE < UNDEF < TRUE *)

Definition rank (t : tri) : nat := match t with FALSE => 0 | UNDEF => 1 | TRUE => 2 end%nat.
Definition unrank (n : nat) : tri := match n with O => FALSE | S O => UNDEF | _ => TRUE end.
Definition knot (a : tri) : tri := unrank (2 - rank a).
Definition kand (a b : tri) : tri := unrank (Nat.min (rank a) (rank b)).
Definition kor (a b : tri) : tri := unrank (Nat.max (rank a) (rank b)).

(** ** Attribute assignments *)

(** The declared type and the value of each attribute, if it is known. *)
Definition env := cat -> str -> option (symtype * pyval).

(** What an operand is when it is compared. *)
Inductive okind : Type :=
| KUndef                     (* undefined *)
| KTri (t : tri)             (* a boolean attribute *)
| KAtom (a : atom)           (* a literal *)
| KLit (l : list atom)       (* a literal set *)
| KScal (v : pyval)          (* an attribute holding a number or string *)
| KColl (l : list pyval).    (* an attribute holding a set or list *)

(** An attribute counts only when its value has its declared type. *)
Definition att_kind (a : option (symtype * pyval)) : okind :=
  match a with
  | Some (ST_BOOL, VTri UNDEF) => KUndef
  | Some (ST_BOOL, VTri t) => KTri t
  | Some ((ST_INT | ST_FLOAT), ((VInt _ | VFloat _ | VBool _) as v)) => KScal v
  | Some (ST_STRING, VStr s) => KScal (VStr s)
  | Some (ST_SET, (VList l | VSet l)) => KColl l
  | _ => KUndef
  end.

Definition atom_val (a : atom) : pyval :=
  match a with AInt z => VInt z | AFloat f => VFloat f | AStr s => VStr s | ANull => VNull end.

Definition operand_kind (E : env) (o : operand) : okind :=
  match o with
  | OAtom a => KAtom a
  | OSet l => KLit l
  | OAtt c n => att_kind (E c n)
  end.

(** ** Comparisons *)

Definition kval (k : okind) : option pyval :=
  match k with KAtom a => Some (atom_val a) | KScal v => Some v | _ => None end.
Definition knum (k : okind) : option num :=
  match kval k with Some v => as_num v | None => None end.

(** The order of two numbers decides inequalities; no order (NaN) makes them false. *)
Definition ineq (o : cmp) (c : option comparison) : bool :=
  match o, c with
  | OpGt, Some Gt | OpLt, Some Lt | OpGe, Some (Gt | Eq) | OpLe, Some (Lt | Eq) => true
  | _, _ => false
  end.

Definition member (x : pyval) (l : list pyval) : bool := existsb (py_eq x) l.
Definition subset (l m : list pyval) : bool := forallb (fun x => member x m) l.
Definition set_equal (l m : list pyval) : bool :=
  subset l m && forallb (fun y => existsb (fun x => py_eq x y) l) m.
Definition meet (l m : list pyval) : bool := existsb (fun x => member x l) m.

(** Members of a collection; a single value counts as a one-element set when it
    comes from an attribute and is compared with a collection or another
    (non-boolean) attribute. *)
Definition as_set (k other : okind) : option (list pyval) :=
  match k, other with
  | KLit l, _ => Some (map atom_val l)
  | KColl l, _ => Some l
  | KScal v, (KLit _ | KColl _ | KScal _) => Some [v]
  | _, _ => None
  end.

(** Equality of single values of the same sort. *)
Definition same_sort_eq (a b : pyval) : option bool :=
  match a, b with
  | VStr x, VStr y => Some (str_eqb x y)
  | VNull, VNull => Some true
  | _, _ => match as_num a, as_num b with
            | Some x, Some y => Some (match num_cmp x y with Some Eq => true | _ => false end)
            | _, _ => None
            end
  end.

Definition eq_den (a b : okind) : option bool :=
  match a, b with
  | (KScal _ | KColl _), (KScal _ | KColl _) =>
      match as_set a b, as_set b a with
      | Some l, Some m => Some (set_equal l m)
      | _, _ => None
      end
  | KLit l, KLit m => Some (set_equal (map atom_val l) (map atom_val m))
  | _, _ => match kval a, kval b with Some x, Some y => same_sort_eq x y | _, _ => None end
  end.

Definition in_den (a b : okind) : option bool :=
  match as_set b a with
  | Some m =>
      match a with
      | KAtom x => Some (member (atom_val x) m)
      | KScal v => Some (member v m)
      | KLit l => Some (meet (map atom_val l) m)
      | KColl l => Some (meet l m)
      | _ => None
      end
  | None => None
  end.

Definition subset_den (a b : okind) : option bool :=
  match as_set a b, as_set b a with
  | Some l, Some m => Some (subset l m)
  | _, _ => None
  end.

(** [None]: the comparison has no meaning for these operands. *)
Definition cmp_bool (o : cmp) (a b : okind) : option bool :=
  match o with
  | OpGt | OpLt | OpGe | OpLe =>
      match knum a, knum b with Some x, Some y => Some (ineq o (num_cmp x y)) | _, _ => None end
  | OpEq => eq_den a b
  | OpNe => option_map negb (eq_den a b)
  | OpIn => in_den a b
  | OpSubset => subset_den a b
  end.

Definition undefined (k : okind) : bool := match k with KUndef => true | _ => false end.

Definition cmp_den (o : cmp) (a b : okind) : tri :=
  if undefined a || undefined b then UNDEF
  else match cmp_bool o a b with Some true => TRUE | Some false => FALSE | None => UNDEF end.

(** ** Policies *)

Section Meaning.
Variable E : env.

(** The truth value of a policy. *)
Fixpoint den (p : pol) : tri :=
  match p with
  | PConst t => t
  | PAtt c n => match att_kind (E c n) with KTri t => t | _ => UNDEF end
  | PCmp o l r => cmp_den o (operand_kind E l) (operand_kind E r)
  | PNot p => knot (den p)
  | PAnd p q => kand (den p) (den q)
  | POr p q => kor (den p) (den q)
  end.

(** ** When evaluation raises *)

(** 0, 0.0, -0.0 and "". *)
Definition zero_atom (a : atom) : bool :=
  match a with
  | AInt 0 | AFloat (S754_zero _) | AStr [] => true
  | _ => false
  end.
Definition zero_operand (o : operand) : bool :=
  match o with OAtom a => zero_atom a | OSet l => existsb zero_atom l | OAtt _ _ => false end.

Definition is_null (a : atom) : bool := match a with ANull => true | _ => false end.
Definition unhashable_members (k : okind) : bool :=
  match k with KColl l => existsb (fun v => negb (hashable v)) l | _ => false end.
Definition has_null (k : okind) : bool :=
  match k with KLit l => existsb is_null l | _ => false end.

(** NULL occurs in [m] before a member of [l]. *)
Fixpoint null_first (l : list pyval) (m : list atom) : bool :=
  match m with
  | [] => false
  | ANull :: _ => true
  | x :: m' => if member (atom_val x) l then false else null_first l m'
  end.

(** The comparison hashes something that cannot be hashed. *)
Definition hash_fault (o : cmp) (a b : okind) : bool :=
  match o with
  | OpGt | OpLt | OpGe | OpLe => false
  | OpEq | OpNe =>
      unhashable_members a || unhashable_members b ||
      match a, b with KLit _, KLit _ => has_null a || has_null b | _, _ => false end
  | OpIn =>
      unhashable_members a || unhashable_members b ||
      match a, b with
      | KAtom ANull, KColl _ => true
      | KColl l, KLit m => null_first l m
      | _, _ => false
      end
  | OpSubset => unhashable_members a || unhashable_members b || has_null a || has_null b
  end.

Definition cmp_faults (o : cmp) (l r : operand) : bool :=
  zero_operand l || zero_operand r ||
  (negb (undefined (operand_kind E l) || undefined (operand_kind E r))
   && hash_fault o (operand_kind E l) (operand_kind E r)).

(** Evaluating [p] as an operand of NOT, AND or OR raises. *)
Fixpoint faults (p : pol) : bool :=
  match p with
  | PConst TRUE => false
  | PConst _ => true
  | PAtt c n => match att_kind (E c n) with KScal _ | KColl _ => true | _ => false end
  | PCmp o l r => cmp_faults o l r
  | PNot p => faults p
  | PAnd p q | POr p q => faults p || faults q
  end.

(** Evaluating [p] as a whole policy raises. *)
Definition root_faults (p : pol) : bool :=
  match p with
  | PConst _ => true
  | PAtt _ _ => false
  | _ => faults p
  end.

(** ** Warnings *)

Definition att_warns (c : cat) (n : str) : list wkind :=
  match E c n with
  | None => [WUnknownAtt]
  | Some (_, VNone) => [WNoValue; WBadType]
  | Some (ST_BOOL, VTri UNDEF) => []
  | a => if undefined (att_kind a) then [WBadType] else []
  end.
Definition operand_warns (o : operand) : list wkind :=
  match o with OAtt c n => att_warns c n | _ => [] end.

Fixpoint warns (p : pol) : list wkind :=
  match p with
  | PConst _ => []
  | PAtt c n => att_warns c n
  | PCmp o l r =>
      operand_warns l ++ operand_warns r ++
      (if undefined (operand_kind E l) || undefined (operand_kind E r) then []
       else match cmp_bool o (operand_kind E l) (operand_kind E r) with
            | Some _ => [] | None => [WOperator]
            end)
  | PNot p => warns p
  | PAnd p q | POr p q => warns p ++ warns q
  end.

End Meaning.

(** ** Evaluating the same tree object a second time, with other attributes *)

Section Again.
Variables E1 E2 : env.

(** An operand result that is kept: anything truthy. *)
Definition kept (k : okind) : bool :=
  match k with KScal _ | KColl _ | KTri TRUE => true | _ => false end.
Definition mixed_env : env := fun c n => if kept (att_kind (E1 c n)) then E1 c n else E2 c n.

(** The value a sub-policy then has: TRUE the first time is TRUE for ever. *)
Fixpoint reden (p : pol) : tri :=
  match den E1 p with
  | TRUE => TRUE
  | _ =>
    match p with
    | PConst t => t
    | PAtt c n => match att_kind (mixed_env c n) with KTri t => t | _ => UNDEF end
    | PCmp o l r => cmp_den o (operand_kind mixed_env l) (operand_kind mixed_env r)
    | PNot q => knot (reden q)
    | PAnd q r => kand (reden q) (reden r)
    | POr q r => kor (reden q) (reden r)
    end
  end.

Fixpoint refaults (p : pol) : bool :=
  match den E1 p with
  | TRUE => false
  | _ =>
    match p with
    | PConst _ => true
    | PAtt c n => match att_kind (mixed_env c n) with KScal _ | KColl _ => true | _ => false end
    | PCmp o l r => cmp_faults mixed_env o l r
    | PNot q => refaults q
    | PAnd q r | POr q r => refaults q || refaults r
    end
  end.

(** Warnings of the second evaluation. *)
Definition operand_rewarns (o : operand) : list wkind :=
  match o with OAtt c n => if kept (att_kind (E1 c n)) then [] else att_warns E2 c n | _ => [] end.
Definition cmp_rewarns (o : cmp) (l r : operand) : list wkind :=
  operand_rewarns l ++ operand_rewarns r ++
  (if undefined (operand_kind mixed_env l) || undefined (operand_kind mixed_env r) then []
   else match cmp_bool o (operand_kind mixed_env l) (operand_kind mixed_env r) with
        | Some _ => [] | None => [WOperator]
        end).
Fixpoint rewarns (p : pol) : list wkind :=
  match den E1 p with
  | TRUE => []
  | _ =>
    match p with
    | PConst _ => []
    | PAtt c n => operand_rewarns (OAtt c n)
    | PCmp o l r => cmp_rewarns o l r
    | PNot q => rewarns q
    | PAnd q r | POr q r => rewarns q ++ rewarns r
    end
  end.
Definition root_rewarns (p : pol) : list wkind :=
  match p with
  | PConst _ => []
  | PAtt c n => att_warns E2 c n
  | PCmp o l r => cmp_rewarns o l r
  | PNot q => rewarns q
  | PAnd q r | POr q r => rewarns q ++ rewarns r
  end.

(** The whole policy is always computed again. *)
Definition root_reden (p : pol) : tri :=
  match p with
  | PConst t => t
  | PAtt c n => match att_kind (E2 c n) with KTri t => t | _ => UNDEF end
  | PCmp o l r => cmp_den o (operand_kind mixed_env l) (operand_kind mixed_env r)
  | PNot q => knot (reden q)
  | PAnd q r => kand (reden q) (reden r)
  | POr q r => kor (reden q) (reden r)
  end.
Definition root_refaults (p : pol) : bool :=
  match p with
  | PConst _ => true
  | PAtt _ _ => false
  | PCmp o l r => cmp_faults mixed_env o l r
  | PNot q => refaults q
  | PAnd q r | POr q r => refaults q || refaults r
  end.

End Again.
