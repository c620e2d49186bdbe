(** * TypeDiag: model of hgpl/semantics.py with the messages of its issues *)

From Coq Require Import NArith ZArith List Bool String.
From Verif Require Import PyBase PyNum Lexer Values Ast Symbols AttCert Errors TypeCheck.
Import ListNotations.
Open Scope Z_scope.

(** What a check does and the messages of the issues it adds, in order. *)
Definition mout := (tout * list str)%type.
Definition quiet (o : tout) : mout := (o, []).

(** hgpl/semantics.py 93-100, _type_error(node, msg, check, left, right). *)
Definition m_error (st : tstate) (node : ast) (msg : str) (c : check_name) (l r : ast) : mout :=
  ((type_error st node c l r, None), [msg]).

Section WithUnicode.
Variable U : unicode.

(** hgpl/semantics.py 63-65 and 85-86: the messages of _att_check, with the names of symbols. *)
Definition both_msg (a b : str) : str :=
  lit "Possible type error with attributes " ++ a ++ lit " and " ++ b
  ++ lit ". Attributes compared with different types and each other".
Definition one_msg (a : str) : str :=
  lit "Possible type error with attribute " ++ a ++ lit ". Attribute compared with different types.".

(** hgpl/semantics.py 41-91, _att_check *)
Definition m_att_check (st : tstate) (n : ast) : mout :=
  match n_left n, n_right n with
  | Some l, Some r =>
      if is_att l && is_att r then
        match att_to_symbol_name (n_cls l) (n_tok l), att_to_symbol_name (n_cls r) (n_tok r) with
        | Err e, _ | _, Err e => quiet (st, Some e)
        | Ok ln, Ok rn =>
            match st_lookup U (ts_table st) ln, st_lookup U (ts_table st) rn with
            | Some ll, Some rl =>
                let ls := hget (ts_heap st) ll in
                let rs := hget (ts_heap st) rl in
                if negb (symtype_eqb (sy_type ls) (sy_type rs)) && negb (is_num_type (sy_type ls) && is_num_type (sy_type rs))
                then m_error st n (both_msg (sy_name ls) (sy_name rs)) AttCheck l r else quiet (st, None)
            | _, _ => quiet (st, Some EGeneric)
            end
        end
      else
        let '(a, v) := if is_att l then (l, r) else (r, l) in
        match att_to_symbol_name (n_cls a) (n_tok a) with
        | Err e => quiet (st, Some e)
        | Ok an =>
            let vt := convert_token_type (t_type (n_tok v)) in
            match st_lookup U (ts_table st) an with
            | Some al =>
                let s := hget (ts_heap st) al in
                if symtype_eqb (sy_type s) ST_UNKNOWN then
                  match st_switch_type U (ts_heap st) (ts_table st) (sy_name s) vt with
                  | Ok (h, _) => quiet (TS h (ts_table st) (ts_issues st), None)
                  | Err e => quiet (st, Some e)
                  end
                else if negb (symtype_eqb (sy_type s) vt) && negb (is_num_type (sy_type s) && is_num_type vt)
                then m_error st n (one_msg (sy_name s)) AttCheck l r else quiet (st, None)
            | None => quiet (st, Some EGeneric)
            end
        end
  | _, _ => quiet (st, Some EGeneric)
  end.

(** hgpl/semantics.py 102-121, _num_check *)
Definition m_num_check (st : tstate) (n : ast) : mout :=
  match n_left n, n_right n with
  | Some l, Some r =>
      if is_string l || is_string r then
        m_error st n (lit "Type Error, strings can not be compared using inequality operations.") NumCheck l r
      else if is_null l || is_null r then
        m_error st n (lit "Type Error, NULL value can not be compared using inequality operations.") NumCheck l r
      else if is_att l || is_att r then m_att_check st n
      else if is_setn l || is_setn r then
        m_error st n (lit "Type Error, sets can not be compared using inequality operations.") NumCheck l r
      else quiet (st, None)
  | _, _ => quiet (st, Some EGeneric)
  end.

(** hgpl/semantics.py 123-144, _eq_check *)
Definition m_eq_check (st : tstate) (n : ast) : mout :=
  match n_left n, n_right n with
  | Some l, Some r =>
      if is_att l || is_att r then m_att_check st n
      else if (is_null l && negb (is_null r)) || (negb (is_null l) && is_null r) then
        m_error st n (lit "Type Error, NULL value can only be compared with other NULL values and attributes.") EqCheck l r
      else if (is_string l && negb (is_string r)) || (negb (is_string l) && is_string r) then
        m_error st n (lit "Type Error, string values can only be compared with other string values and attributes.") EqCheck l r
      else if (is_setn l && negb (is_setn r)) || (negb (is_setn l) && is_setn r) then
        m_error st n (lit "Type Error, sets can only be compared with other sets and attributes.") EqCheck l r
      else quiet (st, None)
  | _, _ => quiet (st, Some EGeneric)
  end.

(** hgpl/semantics.py 146-168, _in_check *)
Definition side_msg (what side : string) : str :=
  lit "Type Error, " ++ lit what ++ lit " can only be used on the " ++ lit side ++ lit " hand side of IN operations.".
Definition m_in_check (st : tstate) (n : ast) : mout :=
  match n_left n, n_right n with
  | Some l, Some r =>
      if is_null r then m_error st n (side_msg "NULL value" "left") InCheck l r
      else if is_setn l then m_error st n (side_msg "set values" "right") InCheck l r
      else if is_string r then m_error st n (side_msg "string value" "left") InCheck l r
      else if is_int r then m_error st n (side_msg "int value" "left") InCheck l r
      else if is_float r then m_error st n (side_msg "float value" "left") InCheck l r
      else quiet (st, None)
  | _, _ => quiet (st, Some EGeneric)
  end.

(** hgpl/semantics.py 170-181, _subset_check *)
Definition m_subset_check (st : tstate) (n : ast) : mout :=
  match n_left n, n_right n with
  | Some l, Some r =>
      if negb ((is_setn l || is_att l) && (is_setn r || is_att r)) then
        m_error st n (lit "Type Error, only sets and attributes can be compared using the SUBSET operation.") SubsetCheck l r
      else quiet (st, None)
  | _, _ => quiet (st, Some EGeneric)
  end.

(** hgpl/semantics.py 183-194, _op_node *)
Definition m_op_node (st : tstate) (n : ast) : mout :=
  match t_val (n_tok n) with
  | TStr s =>
      if existsb (str_eqb s) [lit ">"; lit "<"; lit "<="; lit ">="] then m_num_check st n
      else if existsb (str_eqb s) [lit "="; lit "!="] then m_eq_check st n
      else if str_eqb (py_upper U s) (lit "IN") then m_in_check st n
      else if str_eqb (py_upper U s) (lit "SUBSET") then m_subset_check st n
      else quiet (st, Some EGeneric)
  | _ => quiet (st, Some EAttribute)
  end.

(** hgpl/semantics.py 196-204, _scan_tree *)
Fixpoint m_scan_tree (st : tstate) (n : ast) : mout :=
  let 'Node c t i r ks := n in
  let '((st1, e), ms) :=
    (fix go (st : tstate) (l : list ast) : mout :=
       match l with
       | [] => quiet (st, None)
       | k :: rest =>
           if skipped k then go st rest
           else let '((st', e), ms) := m_scan_tree st k in
                match e with
                | Some x => ((st', Some x), ms)
                | None => let '(o, ms') := go st' rest in (o, ms ++ ms')
                end
       end) st ks in
  match e with
  | Some x => ((st1, Some x), ms)
  | None =>
      if is_att_cls c then (att_node U st1 n, ms)
      else match c with COp => let '(o, ms') := m_op_node st1 n in (o, ms ++ ms') | _ => ((st1, None), ms) end
  end.

(** A checker with the messages of its issues, in their order, and what get_issues() gives
    (hgpl/semantics.py 224-226). *)
Record mchecker : Type := MC { mc_checker : checker; mc_msgs : list str }.
Definition mchecker_new (a : ast) : mchecker := MC (checker_new a) [].
Definition m_issues (c : mchecker) : list (issue * str) := combine (get_issues (mc_checker c)) (mc_msgs c).

Inductive mresult : Type :=
| MReturned (l : list (issue * str)) | MRaised (x : issue * str) | MCrashed (e : exc).

(** hgpl/semantics.py 231-240, check *)
Definition m_check (c : mchecker) (level : Z) : mchecker * mresult :=
  let ck := mc_checker c in
  let '((st, e), ms) := m_scan_tree (tc_state ck) (tc_ast ck) in
  match e with
  | Some x => (MC (Checker st (tc_checked ck) (tc_ast ck)) (mc_msgs c ++ ms), MCrashed x)
  | None =>
      let c' := MC (Checker st true (tc_ast ck)) (mc_msgs c ++ ms) in
      (c', match find (fun x => level <=? is_type (fst x)) (m_issues c') with
           | Some x => MRaised x
           | None => MReturned (m_issues c')
           end)
  end.

End WithUnicode.

(** str() of an issue, with the policy text the checker was given (hgpl/semantics.py 24-31, errors.py 31-37). *)
Definition issue_str (text : str) (x : issue * str) : str := err_str (snd x) (Some text) (is_pos (fst x)).
