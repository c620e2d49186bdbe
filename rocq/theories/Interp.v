(** * Interp: model of hgpl/interpreting.py *)

From Coq Require Import NArith ZArith List Bool String.
From Verif Require Import PyBase PyNum Lexer Values Ast Symbols.
Import ListNotations.
Open Scope Z_scope.

(** An InterpreterWarning (hgpl/interpreting.py 21-31): why, and its position.
    Operator warnings pass values instead of nodes, so their position is -1. *)
Inductive wkind : Type := WNoValue | WBadType | WUnknownAtt | WOperator.
Record warning : Type := Warn { w_kind : wkind; w_pos : Z }.

Definition op_warn : warning := Warn WOperator (-1).

(** Outcome of an operator: warnings, then result or exception. *)
Definition out := (list warning * res tri)%type.
Definition ret (t : tri) : out := ([], Ok t).
Definition raise_ (e : exc) : out := ([], Err e).
Definition warn_undef : out := ([op_warn], Ok UNDEF).
Definition of_bool (r : res bool) : out :=
  match r with Ok b => ret (tri_of_bool b) | Err e => raise_ e end.
Definition lift_res {A} (r : res A) (k : A -> out) : out :=
  match r with Ok a => k a | Err e => raise_ e end.

(** Truth value of [ASTNode.result]; a Symbol object is truthy. *)
Definition rtruthy (r : option rval) : bool :=
  match r with None => false | Some (RSym _) => true | Some (RV v) => truthy v end.

Definition is_sym (r : rval) : bool := match r with RSym _ => true | RV _ => false end.
Definition is_coll (r : rval) : bool :=
  match r with RV v => isinst_set v || isinst_list v | RSym _ => false end.

(** [set(a) == set(b)] on members. *)
Definition sets_eqb (l m : list pyval) : bool := py_eq (VSet l) (VSet m).

Section WithTable.
Variable U : unicode.
Variable h : heap.
Variable tb : table.

(** hgpl/interpreting.py 89-100, _symbol_to_val; [other] is the other operand's
    result and [mode] is 0 or 1.  [{v}] needs a hashable value. *)
Definition symbol_to_val (s : symbol) (other : rval) (mode : nat) : res pyval :=
  match sy_value s with
  | VSet l => Ok (VSet l)
  | VList l => m <- py_set l ;; Ok (VSet m)
  | v =>
      if is_coll other || is_sym other then
        match mode with
        | O => m <- py_set [v] ;; Ok (VSet m)
        | _ => Ok v
        end
      else Ok v
  end.

Definition to_val (r other : rval) (mode : nat) : res pyval :=
  match r with
  | RSym l => symbol_to_val (hget h l) other mode
  | RV v => Ok v
  end.

(** hgpl/interpreting.py 102-120, _eq_op. *)
Definition eq_op (lr rr : rval) : out :=
  lift_res (to_val lr rr 0) (fun l =>
  lift_res (to_val rr lr 0) (fun r =>
  if (isinst_num l && isinst_num r) || (isinst_str l && isinst_str r)
     || (isinst_set l && isinst_set r) || (isinst_null l && isinst_null r)
  then ret (tri_of_bool (py_eq l r))
  else match l, r with
       | VList a, VList b =>
           lift_res (py_set a) (fun a' => lift_res (py_set b) (fun b' =>
             ret (tri_of_bool (sets_eqb a' b'))))
       | _, _ => warn_undef
       end)).

(** hgpl/interpreting.py 122-123, _neq_op. *)
Definition neq_op (lr rr : rval) : out :=
  let '(ws, r) := eq_op lr rr in (ws, t <- r ;; Ok (tri_not t)).

(** [s.value] of a symbol, the value itself otherwise. *)
Definition plain (r : rval) : pyval :=
  match r with RSym l => sy_value (hget h l) | RV v => v end.

(** hgpl/interpreting.py 125-175, _gt_op, _lt_op, _gte_op, _lte_op. *)
Definition ineq_op (f : num -> num -> bool) (lr rr : rval) : out :=
  match as_num (plain lr), as_num (plain rr) with
  | Some a, Some b => ret (tri_of_bool (f a b))
  | _, _ => warn_undef
  end.
Definition gt_op := ineq_op num_gtb.
Definition lt_op := ineq_op num_ltb.
Definition gte_op := ineq_op num_geb.
Definition lte_op := ineq_op num_leb.

(** [x in c] for a list or set c. *)
Definition py_in (x c : pyval) : res bool :=
  match c with
  | VList l => Ok (in_list x l)
  | VSet l => in_set x l
  | _ => Err EType
  end.

(** [any(x in c for x in l)]. *)
Fixpoint any_in (l : list pyval) (c : pyval) : res bool :=
  match l with
  | [] => Ok false
  | x :: r => b <- py_in x c ;; if b then Ok true else any_in r c
  end.

Definition coll_elems (v : pyval) : option (list pyval) :=
  match v with VSet l | VList l => Some l | _ => None end.

(** hgpl/interpreting.py 177-194, _in_op. *)
Definition in_op (lr rr : rval) : out :=
  lift_res (to_val lr rr 1) (fun l =>
  lift_res (to_val rr lr 0) (fun r =>
  match coll_elems r with
  | Some re =>
      if isinst_num l || isinst_str l then of_bool (py_in l r)
      else if isinst_null l then of_bool (py_in VNull r)
      else match coll_elems l with
           | Some _ => of_bool (any_in re l)
           | None => warn_undef
           end
  | None => warn_undef
  end)).

(** hgpl/interpreting.py 198-206: a symbol or a list becomes a set. *)
Definition subset_val (r other : rval) : res pyval :=
  match r with
  | RV (VList l) => m <- py_set l ;; Ok (VSet m)
  | _ => to_val r other 0
  end.

(** hgpl/interpreting.py 196-213, _subset_op. *)
Definition subset_op (lr rr : rval) : out :=
  lift_res (subset_val lr rr) (fun l =>
  lift_res (subset_val rr lr) (fun r =>
  match l, r with
  | VSet a, VSet b => ret (tri_of_bool (forallb (fun x => in_list x b) a))
  | _, _ => warn_undef
  end)).

(** hgpl/interpreting.py 224, [result == ASTResult.UNDEF]; a Symbol compares its
    name, which contains a dot, with 'UNDEF' and is different. *)
Definition is_undef (r : rval) : bool :=
  match r with RV (VTri UNDEF) => true | _ => false end.

(** What evaluating a node leaves in [result], the warnings, and an exception. *)
Definition self_out := (option rval * list warning * option exc)%type.

Definition from_out (old : option rval) (o : out) : self_out :=
  match o with
  | (ws, Ok t) => (Some (RV (VTri t)), ws, None)
  | (ws, Err e) => (old, ws, Some e)
  end.

(** hgpl/interpreting.py 45-65, _evaluate_att_node. *)
Definition eval_att (c : nclass) (t : token) (old : option rval) : self_out :=
  match att_to_symbol_name c t with
  | Err e => (old, [], Some e)
  | Ok name =>
      match st_lookup U tb name with
      | Some l =>
          let s := hget h l in
          let ws := match sy_value s with VNone => [Warn WNoValue (t_pos t)] | _ => [] end in
          if negb (check_val_type s) then
            (Some (RV (VTri UNDEF)), ws ++ [Warn WBadType (t_pos t)], None)
          else if symtype_eqb (sy_type s) ST_BOOL then (Some (RV (sy_value s)), ws, None)
          else (Some (RSym l), ws, None)
      | None => (Some (RV (VTri UNDEF)), [Warn WUnknownAtt (t_pos t)], None)
      end
  end.

(** hgpl/interpreting.py 67-72, _evaluate_not_node. *)
Definition eval_not (t : token) (kids : list ast) (old : option rval) : self_out :=
  match kids with
  | k :: _ =>
      match n_result k with
      | Some (RV (VTri x)) => (Some (RV (VTri (tri_not x))), [], None)
      | _ => (old, [], Some (EInterp (t_pos t)))
      end
  | [] => (old, [], Some (EInterp (t_pos t)))
  end.

(** hgpl/interpreting.py 74-87, _evaluate_bool_op_node; [None.upper()] is an
    AttributeError. *)
Definition eval_bool_op (t : token) (kids : list ast) (old : option rval) : self_out :=
  match kids with
  | l :: r :: _ =>
      match n_result l, n_result r with
      | Some (RV (VTri a)), Some (RV (VTri b)) =>
          match t_val t with
          | TStr s =>
              let u := py_upper U s in
              if str_eqb u (lit "AND") then (Some (RV (VTri (tri_and a b))), [], None)
              else if str_eqb u (lit "OR") then (Some (RV (VTri (tri_or a b))), [], None)
              else (old, [], Some (EInterp (t_pos t)))
          | _ => (old, [], Some EAttribute)
          end
      | _, _ => (old, [], Some (EInterp (t_pos t)))
      end
  | _ => (old, [], Some (EInterp (t_pos t)))
  end.

(** hgpl/interpreting.py 228-245: the operator by its spelling. *)
Definition run_op (s u : str) (lr rr : rval) (p : Z) : out :=
  if str_eqb s (lit "=") then eq_op lr rr
  else if str_eqb s (lit "!=") then neq_op lr rr
  else if str_eqb s (lit ">") then gt_op lr rr
  else if str_eqb s (lit "<") then lt_op lr rr
  else if str_eqb s (lit ">=") then gte_op lr rr
  else if str_eqb s (lit "<=") then lte_op lr rr
  else if str_eqb u (lit "IN") then in_op lr rr
  else if str_eqb u (lit "SUBSET") then subset_op lr rr
  else raise_ (EInterp p).

(** hgpl/interpreting.py 215-247, _evaluate_op_node. *)
Definition eval_op (t : token) (kids : list ast) (old : option rval) : self_out :=
  match kids with
  | l :: r :: _ =>
      match n_result l, n_result r with
      | Some lr, Some rr =>
          match t_val t with
          | TStr s =>
              let u := py_upper U s in
              if existsb (str_eqb u) [lit "="; lit "!="; lit "<"; lit ">"; lit "<="; lit ">="; lit "IN"; lit "SUBSET"]
              then if is_undef lr || is_undef rr then (Some (RV (VTri UNDEF)), [], None)
                   else from_out old (run_op s u lr rr (t_pos t))
              else (old, [], Some (EInterp (t_pos t)))
          | _ => (old, [], Some EAttribute)
          end
      | _, _ => (old, [], Some (EInterp (t_pos t)))
      end
  | _ => (old, [], Some (EInterp (t_pos t)))
  end.

(** hgpl/interpreting.py 249-256, _evaluate_set_node: the members collected so far
    stay in [result] when a member is rejected. *)
Fixpoint set_members (kids : list ast) : list pyval * bool :=
  match kids with
  | [] => ([], true)
  | k :: r =>
      match n_result k with
      | Some (RV v) =>
          if truthy v && (isinst_num v || isinst_str v || isinst_null v)
          then let '(l, ok) := set_members r in (v :: l, ok)
          else ([], false)
      | _ => ([], false)
      end
  end.
Definition eval_set (t : token) (kids : list ast) : self_out :=
  let '(l, ok) := set_members kids in
  (Some (RV (VList l)), [], if ok then None else Some (EInterp (t_pos t))).

(** hgpl/interpreting.py 263-274: dispatch on the class of the node. *)
Definition eval_self (c : nclass) (t : token) (old : option rval) (kids : list ast) : self_out :=
  match c with
  | CAtt | CUsr | CObj | CAdm | CCon | CEnv => eval_att c t old
  | CNot => eval_not t kids old
  | CSet _ => eval_set t kids
  | CBoolOp => eval_bool_op t kids old
  | COp => eval_op t kids old
  | _ => (old, [], Some (EInterp (t_pos t)))
  end.

(** hgpl/interpreting.py 258-274, _evaluate_node: children whose result is falsy
    first (259-261), then the node. *)
Fixpoint eval_node (n : ast) : ast * list warning * option exc :=
  let 'Node c t i r kids := n in
  let '(ks, ws, e) :=
    (fix go (l : list ast) : list ast * list warning * option exc :=
       match l with
       | [] => ([], [], None)
       | k :: rest =>
           if rtruthy (n_result k) then
             let '(rest', ws, e) := go rest in (k :: rest', ws, e)
           else
             let '(k', ws1, e1) := eval_node k in
             match e1 with
             | Some x => (k' :: rest, ws1, Some x)
             | None => let '(rest', ws2, e2) := go rest in (k' :: rest', ws1 ++ ws2, e2)
             end
       end) kids in
  match e with
  | Some x => (Node c t i r ks, ws, Some x)
  | None =>
      let '(r', ws2, x) := eval_self c t r ks in
      (Node c t i r' ks, ws ++ ws2, x)
  end.

Fixpoint eval_kids (l : list ast) : list ast * list warning * option exc :=
  match l with
  | [] => ([], [], None)
  | k :: rest =>
      if rtruthy (n_result k) then
        let '(rest', ws, e) := eval_kids rest in (k :: rest', ws, e)
      else
        let '(k', ws1, e1) := eval_node k in
        match e1 with
        | Some x => (k' :: rest, ws1, Some x)
        | None => let '(rest', ws2, e2) := eval_kids rest in (k' :: rest', ws1 ++ ws2, e2)
        end
  end.

End WithTable.

(** hgpl/interpreting.py 7-19: the tree (shared with its owner) and the warnings
    recorded so far. *)
Record interp : Type := Interp { i_ast : ast; i_warnings : list warning }.
Definition interp_new (a : ast) : interp := Interp a [].

(** ErrorType of an InterpreterWarning (hgpl/errors.py 4-10, 85-87). *)
Definition warn_level : Z := 2.

(** hgpl/interpreting.py 279-291, evaluate.  [tb = None] is an omitted table; the
    comparison with a [min_warn_level] of None is a TypeError. *)
Definition evaluate (U : unicode) (h : heap) (it : interp) (tb : option table) (level : option Z)
    : interp * res (option rval) :=
  let table := match tb with Some t => t | None => [] end in
  let '(a, ws, e) := eval_node U h table (i_ast it) in
  let it' := Interp a (i_warnings it ++ ws) in
  match e with
  | Some x => (it', Err x)
  | None =>
      match i_warnings it' with
      | [] => (it', Ok (n_result a))
      | w :: _ =>
          match level with
          | None => (it', Err EType)
          | Some lv => if lv <=? warn_level then (it', Err (EInterpWarning (w_pos w))) else (it', Ok (n_result a))
          end
      end
  end.
