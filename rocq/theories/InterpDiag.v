(** * InterpDiag: model of hgpl/interpreting.py with the messages of its warnings and errors *)

From Coq Require Import NArith ZArith List Bool String.
From Verif Require Import PyBase PyNum Lexer Values Ast Symbols AttCert Errors Interp.
Import ListNotations.
Open Scope Z_scope.

(** An InterpreterWarning as get_warnings() lists it: the call of _warn it comes from, message,
    rule, position and the two values [left] and [right] (hgpl/errors.py 75-87), None where there
    are none.  Not modelled: the node it also carries, which is the one at its position.  As
    everywhere, the members of a set are a list that may repeat one. *)
Record note : Type := Note { no_kind : wkind; no_msg : str; no_rule : str; no_pos : Z; no_left : pyval; no_right : pyval }.

(** An exception: InterpreterError with message, rule and position, or another one. *)
Inductive fault : Type := FInterp (msg rule : str) (pos : Z) | FOther (e : exc).

(** hgpl/interpreting.py 21-31, _warn; no node and operands that are no nodes give position -1. *)
Definition warn_node (k : wkind) (msg rule : str) (t : token) : note := Note k msg rule (t_pos t) VNone VNone.
Definition warn_vals (msg rule : str) (l r : pyval) : note := Note WOperator msg rule (-1) l r.

(** Outcome of an operator. *)
Definition dout := (list note * (tri + fault))%type.
Definition d_ret (t : tri) : dout := ([], inl t).
Definition d_raise (f : fault) : dout := ([], inr f).
Definition d_undef (msg rule : str) (l r : pyval) : dout := ([warn_vals msg rule l r], inl UNDEF).
Definition d_lift {A} (r : res A) (k : A -> dout) : dout :=
  match r with Ok a => k a | Err e => d_raise (FOther e) end.
Definition d_bool (r : res bool) : dout := d_lift r (fun b => d_ret (tri_of_bool b)).

(** What evaluating a node leaves in [result], the warnings, and an exception. *)
Definition dself := (option rval * list note * option fault)%type.
Definition from_dout (old : option rval) (o : dout) : dself :=
  match o with
  | (ns, inl t) => (Some (RV (VTri t)), ns, None)
  | (ns, inr f) => (old, ns, Some f)
  end.

(** hgpl/interpreting.py 71, 86, 247, 255. *)
Definition child_msg : str := lit "Interpreter Error, invalid child node or invalid child node result.".

Section WithTable.
Variable U : unicode.
Variable h : heap.
Variable tb : table.

(** hgpl/interpreting.py 102-120, _eq_op. *)
Definition d_eq_op (lr rr : rval) : dout :=
  d_lift (to_val h lr rr 0) (fun l =>
  d_lift (to_val h rr lr 0) (fun r =>
  if (isinst_num l && isinst_num r) || (isinst_str l && isinst_str r)
     || (isinst_set l && isinst_set r) || (isinst_null l && isinst_null r)
  then d_ret (tri_of_bool (py_eq l r))
  else match l, r with
       | VList a, VList b =>
           d_lift (py_set a) (fun a' => d_lift (py_set b) (fun b' =>
             d_ret (tri_of_bool (sets_eqb a' b'))))
       | _, _ => d_undef (lit "Interpreter Warning, invalid type used in '=' or '!=' operation.") (lit "eq_op") l r
       end)).

(** hgpl/interpreting.py 122-123, _neq_op. *)
Definition d_neq_op (lr rr : rval) : dout :=
  let '(ns, r) := d_eq_op lr rr in (ns, match r with inl t => inl (tri_not t) | inr f => inr f end).

(** hgpl/interpreting.py 125-175, _gt_op, _lt_op, _gte_op, _lte_op; the rule of _gt_op is spelt
    qt_op (135). *)
Definition d_ineq_op (f : num -> num -> bool) (msg rule : str) (lr rr : rval) : dout :=
  match as_num (plain h lr), as_num (plain h rr) with
  | Some a, Some b => d_ret (tri_of_bool (f a b))
  | _, _ => d_undef msg rule (plain h lr) (plain h rr)
  end.
Definition d_gt_op := d_ineq_op num_gtb (lit "Interpreter Warning, invalid type used in '>' operation.") (lit "qt_op").
Definition d_lt_op := d_ineq_op num_ltb (lit "Interpreter Warning, invalid type used in '<' operation.") (lit "lt_op").
Definition d_gte_op := d_ineq_op num_geb (lit "Interpreter Warning, invalid type used in '>=' operation.") (lit "gte_op").
Definition d_lte_op := d_ineq_op num_leb (lit "Interpreter Warning, invalid type used in '<=' operation.") (lit "lte_op").

(** hgpl/interpreting.py 177-194, _in_op. *)
Definition d_in_op (lr rr : rval) : dout :=
  d_lift (to_val h lr rr 1) (fun l =>
  d_lift (to_val h rr lr 0) (fun r =>
  let w := d_undef (lit "Interpreter Warning, invalid type used in 'IN' operation.") (lit "in_op") l r in
  match coll_elems r with
  | Some re =>
      if isinst_num l || isinst_str l then d_bool (py_in l r)
      else if isinst_null l then d_bool (py_in VNull r)
      else match coll_elems l with
           | Some _ => d_bool (any_in re l)
           | None => w
           end
  | None => w
  end)).

(** hgpl/interpreting.py 196-213, _subset_op. *)
Definition d_subset_op (lr rr : rval) : dout :=
  d_lift (subset_val h lr rr) (fun l =>
  d_lift (subset_val h rr lr) (fun r =>
  match l, r with
  | VSet a, VSet b => d_ret (tri_of_bool (forallb (fun x => in_list x b) a))
  | _, _ => d_undef (lit "Interpreter Warning, invalid type used in 'SUBSET' operation.") (lit "subset_op") l r
  end)).

(** hgpl/interpreting.py 45-65, _evaluate_att_node; names are shown as written, not in lower case. *)
Definition d_eval_att (c : nclass) (t : token) (old : option rval) : dself :=
  match att_to_symbol_name c t with
  | Err e => (old, [], Some (FOther e))
  | Ok name =>
      match st_lookup U tb name with
      | Some l =>
          let s := hget h l in
          let ns := match sy_value s with
                    | VNone => [warn_node WNoValue (lit "Interpreter Warning, the attribute " ++ name ++ lit " has no value.")
                                  (lit "evaluate_att_node") t]
                    | _ => []
                    end in
          if negb (check_val_type s) then
            (Some (RV (VTri UNDEF)),
             ns ++ [warn_node WBadType (lit "Interpreter Warning, the attribute " ++ name ++ lit " has an invalid type.")
                      (lit "evaluate_att_node") t], None)
          else if symtype_eqb (sy_type s) ST_BOOL then (Some (RV (sy_value s)), ns, None)
          else (Some (RSym l), ns, None)
      | None =>
          (Some (RV (VTri UNDEF)),
           [warn_node WUnknownAtt (lit "Interpreter Warning, unknown attribute " ++ name ++ lit " found in policy.")
              (lit "evaluate_att_node") t], None)
      end
  end.

(** hgpl/interpreting.py 67-72, _evaluate_not_node. *)
Definition d_eval_not (t : token) (kids : list ast) (old : option rval) : dself :=
  let e := (old, [], Some (FInterp child_msg (lit "evaluate_not_node") (t_pos t))) in
  match kids with
  | k :: _ =>
      match n_result k with
      | Some (RV (VTri x)) => (Some (RV (VTri (tri_not x))), [], None)
      | _ => e
      end
  | [] => e
  end.

(** hgpl/interpreting.py 74-87, _evaluate_bool_op_node. *)
Definition d_eval_bool_op (t : token) (kids : list ast) (old : option rval) : dself :=
  let e := (old, [], Some (FInterp child_msg (lit "evaluate_bool_op_node") (t_pos t))) in
  match kids with
  | l :: r :: _ =>
      match n_result l, n_result r with
      | Some (RV (VTri a)), Some (RV (VTri b)) =>
          match t_val t with
          | TStr s =>
              let u := py_upper U s in
              if str_eqb u (lit "AND") then (Some (RV (VTri (tri_and a b))), [], None)
              else if str_eqb u (lit "OR") then (Some (RV (VTri (tri_or a b))), [], None)
              else e
          | _ => (old, [], Some (FOther EAttribute))
          end
      | _, _ => e
      end
  | _ => e
  end.

(** hgpl/interpreting.py 228-245. *)
Definition d_run_op (s u : str) (lr rr : rval) (p : Z) : dout :=
  if str_eqb s (lit "=") then d_eq_op lr rr
  else if str_eqb s (lit "!=") then d_neq_op lr rr
  else if str_eqb s (lit ">") then d_gt_op lr rr
  else if str_eqb s (lit "<") then d_lt_op lr rr
  else if str_eqb s (lit ">=") then d_gte_op lr rr
  else if str_eqb s (lit "<=") then d_lte_op lr rr
  else if str_eqb u (lit "IN") then d_in_op lr rr
  else if str_eqb u (lit "SUBSET") then d_subset_op lr rr
  else d_raise (FInterp (lit "Interpreter Error, invalid operation.") (lit "evaluate_op_node") p).

(** hgpl/interpreting.py 215-247, _evaluate_op_node. *)
Definition d_eval_op (t : token) (kids : list ast) (old : option rval) : dself :=
  let e := (old, [], Some (FInterp child_msg (lit "evaluate_op_node") (t_pos t))) in
  match kids with
  | l :: r :: _ =>
      match n_result l, n_result r with
      | Some lr, Some rr =>
          match t_val t with
          | TStr s =>
              let u := py_upper U s in
              if existsb (str_eqb u) [lit "="; lit "!="; lit "<"; lit ">"; lit "<="; lit ">="; lit "IN"; lit "SUBSET"]
              then if is_undef lr || is_undef rr then (Some (RV (VTri UNDEF)), [], None)
                   else from_dout old (d_run_op s u lr rr (t_pos t))
              else e
          | _ => (old, [], Some (FOther EAttribute))
          end
      | _, _ => e
      end
  | _ => e
  end.

(** hgpl/interpreting.py 249-256, _evaluate_set_node. *)
Definition d_eval_set (t : token) (kids : list ast) : dself :=
  let '(l, ok) := set_members kids in
  (Some (RV (VList l)), [], if ok then None else Some (FInterp child_msg (lit "evaluate_set_node") (t_pos t))).

(** hgpl/interpreting.py 263-274. *)
Definition d_eval_self (c : nclass) (t : token) (old : option rval) (kids : list ast) : dself :=
  match c with
  | CAtt | CUsr | CObj | CAdm | CCon | CEnv => d_eval_att c t old
  | CNot => d_eval_not t kids old
  | CSet _ => d_eval_set t kids
  | CBoolOp => d_eval_bool_op t kids old
  | COp => d_eval_op t kids old
  | _ => (old, [], Some (FInterp (lit "Interpreter Error, invalid node type.") (lit "evaluate_node") (t_pos t)))
  end.

(** hgpl/interpreting.py 258-274, _evaluate_node. *)
Fixpoint d_eval_node (n : ast) : ast * list note * option fault :=
  let 'Node c t i r kids := n in
  let '(ks, ns, f) :=
    (fix go (l : list ast) : list ast * list note * option fault :=
       match l with
       | [] => ([], [], None)
       | k :: rest =>
           if rtruthy (n_result k) then
             let '(rest', ns, f) := go rest in (k :: rest', ns, f)
           else
             let '(k', ns1, f1) := d_eval_node k in
             match f1 with
             | Some x => (k' :: rest, ns1, Some x)
             | None => let '(rest', ns2, f2) := go rest in (k' :: rest', ns1 ++ ns2, f2)
             end
       end) kids in
  match f with
  | Some x => (Node c t i r ks, ns, Some x)
  | None =>
      let '(r', ns2, x) := d_eval_self c t r ks in
      (Node c t i r' ks, ns ++ ns2, x)
  end.

End WithTable.

(** hgpl/interpreting.py 7-19: the tree and the warnings so far. *)
Record dinterp : Type := DInterp { di_ast : ast; di_notes : list note }.
Definition dinterp_new (a : ast) : dinterp := DInterp a [].

(** What a call of evaluate() ends with. *)
Inductive dresult : Type := DReturned (r : option rval) | DWarned (n : note) | DRaised (f : fault).

(** hgpl/interpreting.py 279-291, evaluate. *)
Definition d_evaluate (U : unicode) (h : heap) (it : dinterp) (tb : option table) (level : option Z) : dinterp * dresult :=
  let table := match tb with Some t => t | None => [] end in
  let '(a, ns, f) := d_eval_node U h table (di_ast it) in
  let it' := DInterp a (di_notes it ++ ns) in
  match f with
  | Some x => (it', DRaised x)
  | None =>
      match di_notes it' with
      | [] => (it', DReturned (n_result a))
      | n :: _ =>
          match level with
          | None => (it', DRaised (FOther EType))
          | Some lv => if lv <=? warn_level then (it', DWarned n) else (it', DReturned (n_result a))
          end
      end
  end.

(** str() of a warning and of an InterpreterError, with the policy text the interpreter was given
    (hgpl/errors.py 31-37). *)
Definition note_str (text : option str) (n : note) : str := err_str (no_msg n) text (no_pos n).
Definition fault_str (text : option str) (f : fault) : option str :=
  match f with FInterp m _ p => Some (err_str m text p) | FOther _ => None end.
