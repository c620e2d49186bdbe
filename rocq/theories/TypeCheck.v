(** * TypeCheck: model of hgpl/semantics.py (TypeChecker) *)

From Coq Require Import NArith ZArith List Bool String.
From Verif Require Import PyBase PyNum Lexer Values Ast Symbols.
Import ListNotations.
Open Scope Z_scope.

(** The [check] argument of an issue. *)
Inductive check_name : Type := NumCheck | EqCheck | InCheck | SubsetCheck | AttCheck.

(** hgpl/errors.py 60-72: severity (3 ERROR, 2 WARN), check, position and the tokens
    of the operator and its operands.  Message and policy text are not modelled. *)
Record issue : Type := Issue {
  is_type : Z; is_check : check_name; is_pos : Z; is_token : token; is_left : token; is_right : token
}.

(** Symbol objects, symbol table and issues of a TypeChecker. *)
Record tstate : Type := TS { ts_heap : heap; ts_table : table; ts_issues : list issue }.
Definition tout := (tstate * option exc)%type.

(** hgpl/semantics.py 18-35: a new checker for a tree. *)
Record checker : Type := Checker { tc_state : tstate; tc_checked : bool; tc_ast : ast }.
Definition checker_new (a : ast) : checker := Checker (TS [] [] []) false a.

(** hgpl/semantics.py 93-100, _type_error. *)
Definition type_error (st : tstate) (node : ast) (c : check_name) (l r : ast) : tstate :=
  let lvl := match c with AttCheck => 2 | _ => 3 end in
  TS (ts_heap st) (ts_table st)
     (ts_issues st ++ [Issue lvl c (t_pos (n_tok node)) (n_tok node) (n_tok l) (n_tok r)]).

(** [t in (SymbolType.INT, SymbolType.FLOAT)]. *)
Definition is_num_type (t : symtype) : bool := symtype_eqb t ST_INT || symtype_eqb t ST_FLOAT.

(** isinstance tests. *)
Definition is_att (n : ast) : bool := is_att_cls (n_cls n).
Definition is_string (n : ast) : bool := match n_cls n with CString => true | _ => false end.
Definition is_null (n : ast) : bool := match n_cls n with CNull => true | _ => false end.
Definition is_int (n : ast) : bool := match n_cls n with CInt => true | _ => false end.
Definition is_float (n : ast) : bool := match n_cls n with CFloat => true | _ => false end.
Definition is_setn (n : ast) : bool := match n_cls n with CSet _ => true | _ => false end.

Section WithUnicode.
Variable U : unicode.

(** hgpl/semantics.py 37-39, _att_node; [.lower()] of a value that is not a str is an
    AttributeError. *)
Definition att_node (st : tstate) (n : ast) : tout :=
  match t_val (n_tok n) with
  | TStr s =>
      let '(h, l) := halloc (ts_heap st) (symbol_new U s (Some (t_type (n_tok n))) (Some ST_UNKNOWN) VNone) in
      let '(tb, _) := st_define U h (ts_table st) l in
      (TS h tb (ts_issues st), None)
  | _ => (st, Some EAttribute)
  end.

(** hgpl/semantics.py 41-91, _att_check.  The conditions of 56 and 59 compare a type
    with itself and are never true. *)
Definition att_check (st : tstate) (n : ast) : tout :=
  match n_left n, n_right n with
  | Some l, Some r =>
      if is_att l && is_att r then
        match att_to_symbol_name (n_cls l) (n_tok l), att_to_symbol_name (n_cls r) (n_tok r) with
        | Err e, _ | _, Err e => (st, Some e)
        | Ok ln, Ok rn =>
            match st_lookup U (ts_table st) ln, st_lookup U (ts_table st) rn with
            | Some ll, Some rl =>
                let lt := sy_type (hget (ts_heap st) ll) in
                let rt := sy_type (hget (ts_heap st) rl) in
                if negb (symtype_eqb lt rt) && negb (is_num_type lt && is_num_type rt)
                then (type_error st n AttCheck l r, None) else (st, None)
            | _, _ => (st, Some EGeneric)
            end
        end
      else
        let '(a, v) := if is_att l then (l, r) else (r, l) in
        match att_to_symbol_name (n_cls a) (n_tok a) with
        | Err e => (st, Some e)
        | Ok an =>
            let vt := convert_token_type (t_type (n_tok v)) in
            match st_lookup U (ts_table st) an with
            | Some al =>
                let s := hget (ts_heap st) al in
                if symtype_eqb (sy_type s) ST_UNKNOWN then
                  match st_switch_type U (ts_heap st) (ts_table st) (sy_name s) vt with
                  | Ok (h, _) => (TS h (ts_table st) (ts_issues st), None)
                  | Err e => (st, Some e)
                  end
                else if negb (symtype_eqb (sy_type s) vt) && negb (is_num_type (sy_type s) && is_num_type vt)
                then (type_error st n AttCheck l r, None) else (st, None)
            | None => (st, Some EGeneric)
            end
        end
  | _, _ => (st, Some EGeneric)
  end.

(** hgpl/semantics.py 102-121, _num_check. *)
Definition num_check (st : tstate) (n : ast) : tout :=
  match n_left n, n_right n with
  | Some l, Some r =>
      if is_string l || is_string r then (type_error st n NumCheck l r, None)
      else if is_null l || is_null r then (type_error st n NumCheck l r, None)
      else if is_att l || is_att r then att_check st n
      else if is_setn l || is_setn r then (type_error st n NumCheck l r, None)
      else (st, None)
  | _, _ => (st, Some EGeneric)
  end.

(** hgpl/semantics.py 123-144, _eq_check. *)
Definition eq_check (st : tstate) (n : ast) : tout :=
  match n_left n, n_right n with
  | Some l, Some r =>
      if is_att l || is_att r then att_check st n
      else if (is_null l && negb (is_null r)) || (negb (is_null l) && is_null r)
           then (type_error st n EqCheck l r, None)
      else if (is_string l && negb (is_string r)) || (negb (is_string l) && is_string r)
           then (type_error st n EqCheck l r, None)
      else if (is_setn l && negb (is_setn r)) || (negb (is_setn l) && is_setn r)
           then (type_error st n EqCheck l r, None)
      else (st, None)
  | _, _ => (st, Some EGeneric)
  end.

(** hgpl/semantics.py 146-168, _in_check. *)
Definition in_check (st : tstate) (n : ast) : tout :=
  match n_left n, n_right n with
  | Some l, Some r =>
      if is_null r then (type_error st n InCheck l r, None)
      else if is_setn l then (type_error st n InCheck l r, None)
      else if is_string r then (type_error st n InCheck l r, None)
      else if is_int r then (type_error st n InCheck l r, None)
      else if is_float r then (type_error st n InCheck l r, None)
      else (st, None)
  | _, _ => (st, Some EGeneric)
  end.

(** hgpl/semantics.py 170-181, _subset_check. *)
Definition subset_check (st : tstate) (n : ast) : tout :=
  match n_left n, n_right n with
  | Some l, Some r =>
      if negb ((is_setn l || is_att l) && (is_setn r || is_att r))
      then (type_error st n SubsetCheck l r, None) else (st, None)
  | _, _ => (st, Some EGeneric)
  end.

(** hgpl/semantics.py 183-194, _op_node; [.upper()] of a value that is not a str is an
    AttributeError. *)
Definition op_node (st : tstate) (n : ast) : tout :=
  match t_val (n_tok n) with
  | TStr s =>
      if existsb (str_eqb s) [lit ">"; lit "<"; lit "<="; lit ">="] then num_check st n
      else if existsb (str_eqb s) [lit "="; lit "!="] then eq_check st n
      else if str_eqb (py_upper U s) (lit "IN") then in_check st n
      else if str_eqb (py_upper U s) (lit "SUBSET") then subset_check st n
      else (st, Some EGeneric)
  | _ => (st, Some EAttribute)
  end.

(** hgpl/semantics.py 198: isinstance(n, (SetNode, ValNode, BoolValNode)). *)
Definition skipped (n : ast) : bool :=
  match n_cls n with
  | CSet _ | CVal | CInt | CFloat | CString | CNull | CBoolVal => true
  | _ => false
  end.

(** hgpl/semantics.py 196-204, _scan_tree. *)
Fixpoint scan_tree (st : tstate) (n : ast) : tout :=
  let 'Node c t i r ks := n in
  let '(st1, e) :=
    (fix go (st : tstate) (l : list ast) : tout :=
       match l with
       | [] => (st, None)
       | k :: rest =>
           if skipped k then go st rest
           else let '(st', e) := scan_tree st k in
                match e with Some x => (st', Some x) | None => go st' rest end
       end) st ks in
  match e with
  | Some x => (st1, Some x)
  | None =>
      if is_att_cls c then att_node st1 n
      else match c with COp => op_node st1 n | _ => (st1, None) end
  end.

(** What check() does: returns the issues, raises one of them, or fails otherwise. *)
Inductive check_result : Type :=
| Returned (l : list issue) | RaisedIssue (i : issue) | Crashed (e : exc).

(** hgpl/semantics.py 231-240, check; the default level is CRIT (4). *)
Definition check (c : checker) (level : Z) : checker * check_result :=
  let '(st, e) := scan_tree (tc_state c) (tc_ast c) in
  match e with
  | Some x => (Checker st (tc_checked c) (tc_ast c), Crashed x)
  | None =>
      (Checker st true (tc_ast c),
       match find (fun i => level <=? is_type i) (ts_issues st) with
       | Some i => RaisedIssue i
       | None => Returned (ts_issues st)
       end)
  end.

End WithUnicode.

(** hgpl/semantics.py 10-15. *)
Inductive tc_result : Type := ResNone | ResPass | ResWarn | ResError.

(** hgpl/semantics.py 206-229. *)
Definition get_errors (c : checker) : list issue := filter (fun i => is_type i =? 3) (ts_issues (tc_state c)).
Definition get_warnings (c : checker) : list issue := filter (fun i => is_type i =? 2) (ts_issues (tc_state c)).
Definition get_result (c : checker) : tc_result :=
  if negb (tc_checked c) then ResNone
  else match ts_issues (tc_state c) with
       | [] => ResPass
       | l => if existsb (fun i => is_type i =? 3) l then ResError else ResWarn
       end.
Definition get_issues (c : checker) : list issue := ts_issues (tc_state c).
