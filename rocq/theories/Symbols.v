(** * Symbols: model of hgpl/symbols.py *)

From Coq Require Import NArith ZArith List Bool String.
From Verif Require Import PyBase PyNum Lexer Values Ast.
Import ListNotations.

(** All Symbol objects; [loc] is an index. *)
Definition heap := list symbol.
Definition no_symbol : symbol := Sym [] [] UNK_ATT ST_UNKNOWN VNone.
Definition hget (h : heap) (l : loc) : symbol := nth l h no_symbol.
Definition halloc (h : heap) (s : symbol) : heap * loc := (h ++ [s], List.length h).
Fixpoint hset (h : heap) (l : loc) (s : symbol) : heap :=
  match h, l with
  | [], _ => []
  | _ :: r, O => s :: r
  | x :: r, S l' => x :: hset r l' s
  end.

(** hgpl/symbols.py 51-56, the value setter: bool becomes ASTResult. *)
Definition conv_value (v : pyval) : pyval :=
  match v with VBool b => VTri (tri_of_bool b) | v => v end.

Definition set_sy_value (s : symbol) (v : pyval) : symbol :=
  Sym (sy_name s) (sy_att_name s) (sy_att_type s) (sy_type s) (conv_value v).
Definition set_sy_type (s : symbol) (t : symtype) : symbol :=
  Sym (sy_name s) (sy_att_name s) (sy_att_type s) t (sy_value s).

(** hgpl/symbols.py 58-65, _att_type_to_policy_var_prefix. *)
Definition var_prefix (t : option ttype) : str :=
  match t with
  | Some USR_ATT => lit "user." | Some OBJ_ATT => lit "object." | Some ENV_ATT => lit "env."
  | Some ADM_ATT => lit "admin." | Some CON_ATT => lit "connect." | _ => lit "unkown."
  end.

(** hgpl/symbols.py 17-25, SymbolType.convert_token_type; None is [ST_NONE]. *)
Definition convert_token_type (t : ttype) : symtype :=
  match t with
  | INT => ST_INT | FLOAT => ST_FLOAT | BOOL => ST_BOOL | STRING => ST_STRING
  | LSET | RSET => ST_SET | NULL => ST_UNKNOWN | _ => ST_NONE
  end.

(** hgpl/symbols.py 67-75, check_val_type.  ([int]/[float] also covers bool, but
    a symbol never holds one.) *)
Definition check_val_type (s : symbol) : bool :=
  (isinst_num (sy_value s) && (symtype_eqb (sy_type s) ST_INT || symtype_eqb (sy_type s) ST_FLOAT))
  || (isinst_str (sy_value s) && symtype_eqb (sy_type s) ST_STRING)
  || ((isinst_set (sy_value s) || isinst_list (sy_value s)) && symtype_eqb (sy_type s) ST_SET)
  || (isinst_tri (sy_value s) && symtype_eqb (sy_type s) ST_BOOL).

(** isinstance(node, AttNode). *)
Definition is_att_cls (c : nclass) : bool :=
  match c with CAtt | CUsr | CObj | CAdm | CCon | CEnv => true | _ => false end.

(** hgpl/symbols.py 77-95, att_to_symbol_name; concatenation with a value that is
    not a str is a TypeError, a node of another class a plain Exception. *)
Definition att_to_symbol_name (c : nclass) (t : token) : res str :=
  p <- (match c with
        | CUsr => Ok (lit "user.") | CObj => Ok (lit "object.") | CAdm => Ok (lit "admin.")
        | CCon => Ok (lit "connect.") | CEnv => Ok (lit "env.") | CAtt => Ok (lit "unknown.")
        | _ => Err EGeneric
        end) ;;
  match t_val t with TStr s => Ok (p ++ s) | _ => Err EType end.

(** hgpl/symbols.py 104-105, Symbol.__eq__ between two symbols. *)
Definition symbol_eqb (a b : symbol) : bool :=
  str_eqb (sy_name a) (sy_name b) && symtype_eqb (sy_type a) (sy_type b).

(** hgpl/symbols.py 111-113: dict from lower-cased names to symbols, in insertion order. *)
Definition table := list (str * loc).

Fixpoint assoc {A} (k : str) (l : list (str * A)) : option A :=
  match l with
  | [] => None
  | (k', v) :: r => if str_eqb k k' then Some v else assoc k r
  end.

(** [d[k] = v]: replaces in place or appends. *)
Fixpoint dict_set {A} (k : str) (v : A) (l : list (str * A)) : list (str * A) :=
  match l with
  | [] => [(k, v)]
  | (k', v') :: r => if str_eqb k k' then (k', v) :: r else (k', v') :: dict_set k v r
  end.

Section WithUnicode.
Variable U : unicode.

(** hgpl/symbols.py 29-45, Symbol.__init__ ([att_name] a str). *)
Definition symbol_new (att_name : str) (att_type : option ttype) (stype : option symtype)
    (value : pyval) : symbol :=
  Sym (var_prefix att_type ++ py_lower U att_name) (py_lower U att_name)
      (match att_type with Some t => t | None => UNK_ATT end)
      (match stype with Some t => t | None => ST_UNKNOWN end)
      (conv_value value).

(** hgpl/symbols.py 115-120, define. *)
Definition st_define (h : heap) (tb : table) (l : loc) : table * bool :=
  let k := py_lower U (sy_name (hget h l)) in
  match assoc k tb with
  | Some _ => (tb, false)
  | None => (tb ++ [(k, l)], true)
  end.

(** hgpl/symbols.py 122-126, lookup (a Symbol argument stands for its name). *)
Definition st_lookup (tb : table) (name : str) : option loc := assoc (py_lower U name) tb.

(** hgpl/symbols.py 128-161. *)
Definition st_lookup_type (h : heap) (tb : table) (name : str) : option symtype :=
  option_map (fun l => sy_type (hget h l)) (st_lookup tb name).
Definition st_lookup_att_type (h : heap) (tb : table) (name : str) : option ttype :=
  option_map (fun l => sy_att_type (hget h l)) (st_lookup tb name).
Definition st_lookup_att_name (h : heap) (tb : table) (name : str) : option str :=
  option_map (fun l => sy_att_name (hget h l)) (st_lookup tb name).
Definition st_exists (tb : table) (name : str) : bool :=
  match st_lookup tb name with Some _ => true | None => false end.

(** hgpl/symbols.py 169-178, lookup_value. *)
Definition st_lookup_value (h : heap) (tb : table) (name : str) : res pyval :=
  match st_lookup tb name with
  | Some l => Ok (sy_value (hget h l))
  | None => Err EGeneric
  end.

(** hgpl/symbols.py 180-189, set_value. *)
Definition st_set_value (h : heap) (tb : table) (name : str) (v : pyval) : res heap :=
  match st_lookup tb name with
  | Some l => Ok (hset h l (set_sy_value (hget h l) v))
  | None => Err EGeneric
  end.

(** hgpl/symbols.py 191-203, switch_type: returns the old type. *)
Definition st_switch_type (h : heap) (tb : table) (name : str) (t : symtype) : res (heap * symtype) :=
  match st_lookup tb name with
  | Some l => Ok (hset h l (set_sy_type (hget h l) t), sy_type (hget h l))
  | None => Err EGeneric
  end.

(** ** SymbolTableBuilder, hgpl/symbols.py 217-291 *)

(** The five attribute dictionaries, and the types dictionary. *)
Record builder : Type := Bld {
  b_types : list (str * symtype);
  b_user : list (str * pyval); b_object : list (str * pyval); b_env : list (str * pyval);
  b_admin : list (str * pyval); b_connect : list (str * pyval)
}.

(** hgpl/symbols.py 218-247 without arguments other than types. *)
Definition builder_new (types : list (str * symtype)) : builder := Bld types [] [] [] [] [].

(** hgpl/symbols.py 257-267, reset_values. *)
Definition reset_values (b : builder) : builder := Bld (b_types b) [] [] [] [] [].

(** [s.split('.', 1)]: the part before the first dot and, if there is one, the rest. *)
Fixpoint split_dot (s : str) : str * option str :=
  match s with
  | [] => ([], None)
  | c :: r => if (c =? 46)%N then ([], Some r)
              else let '(a, b) := split_dot r in (c :: a, b)
  end.

(** hgpl/symbols.py 269-279, one entry: Exception for an unknown category (checked
    first), IndexError for a category without a dot. *)
Definition load_entry (b : builder) (full : str) (v : pyval) : res builder :=
  let '(cat, name) := split_dot full in
  let put (f : str -> builder) : res builder :=
    match name with Some n => Ok (f n) | None => Err EIndex end in
  if str_eqb cat (lit "user") then
    put (fun n => Bld (b_types b) (dict_set n v (b_user b)) (b_object b) (b_env b) (b_admin b) (b_connect b))
  else if str_eqb cat (lit "object") then
    put (fun n => Bld (b_types b) (b_user b) (dict_set n v (b_object b)) (b_env b) (b_admin b) (b_connect b))
  else if str_eqb cat (lit "env") then
    put (fun n => Bld (b_types b) (b_user b) (b_object b) (dict_set n v (b_env b)) (b_admin b) (b_connect b))
  else if str_eqb cat (lit "admin") then
    put (fun n => Bld (b_types b) (b_user b) (b_object b) (b_env b) (dict_set n v (b_admin b)) (b_connect b))
  else if str_eqb cat (lit "connect") then
    put (fun n => Bld (b_types b) (b_user b) (b_object b) (b_env b) (b_admin b) (dict_set n v (b_connect b)))
  else Err EGeneric.

(** hgpl/symbols.py 269-279, load_mixed_att_val_dict.  The builder reached before
    an exception is not returned (the caller sees only the exception). *)
Fixpoint load_mixed (b : builder) (d : list (str * pyval)) : res builder :=
  match d with
  | [] => Ok b
  | (k, v) :: r => b' <- load_entry b k v ;; load_mixed b' r
  end.

(** hgpl/symbols.py 287-290, the inner loop of build. *)
Fixpoint build_dict (types : list (str * symtype)) (att_type : ttype) (d : list (str * pyval))
    (st : heap * table) : heap * table :=
  match d with
  | [] => st
  | (n, v) :: r =>
      let '(h, tb) := st in
      let s := symbol_new n (Some att_type) None v in
      let s := set_sy_type s (match assoc (sy_name s) types with Some t => t | None => ST_UNKNOWN end) in
      let '(h', l) := halloc h s in
      build_dict types att_type r (h', fst (st_define h' tb l))
  end.

(** hgpl/symbols.py 281-291, build. *)
Definition build_table (b : builder) (h : heap) : heap * table :=
  let st := build_dict (b_types b) USR_ATT (b_user b) (h, []) in
  let st := build_dict (b_types b) OBJ_ATT (b_object b) st in
  let st := build_dict (b_types b) ENV_ATT (b_env b) st in
  let st := build_dict (b_types b) ADM_ATT (b_admin b) st in
  build_dict (b_types b) CON_ATT (b_connect b) st.

End WithUnicode.
