(** * Demo: model of hgpl/gui/demos.py, the graphical policy tester

    The frame is a record and every callback a function on it.  Of tkinter the model keeps:
    whether a button or the policy box is enabled, what the box, the tables and the console
    hold, and that callbacks run one after the other.  A disabled button runs nothing and a
    disabled box cannot be changed.  An exception that leaves a callback is printed by
    tkinter and the program goes on, so a callback returns the frame it leaves behind
    together with the exception.  Rows hold the values shown, not their rendering; lines of
    the console hold what they say, without the wording.  The fields _result and _typecheck
    are never filled and are left out, as is the placing of widgets. *)

From Coq Require Import NArith ZArith List Bool String.
From Verif Require Import PyBase PyNum Lexer Values Ast Parser Symbols Interp TypeCheck AttCert AAuth.
Import ListNotations.
Open Scope Z_scope.

(** Parts of Python the editing of attributes relies on: str() and float() of a float, the
    order in which a set is printed, repr() of a str that is not plain ([plain_char] below)
    and of values that are not a number, str or set. *)
Record pytext : Type := PyText {
  show_float : pyfloat -> str; read_float : str -> option pyfloat;
  set_order : list pyval -> list pyval; show_str : str -> str; show_other : pyval -> str }.

(** ** Widgets *)

(** A row of the token list, hgpl/gui/demos.py 66-68. *)
Definition token_row : Type := (ttype * tokval * Z)%type.
(** What the column "Result" of a node shows: nothing, a value, or a Symbol. *)
Inductive shown : Type := ShownNone | ShownValue (v : pyval) | ShownSymbol (s : symbol).
(** A row of the syntax tree and the rows below it, 92-95. *)
Inductive node_row : Type := NodeRow (ty : ttype) (v : tokval) (r : shown) (below : list node_row).
(** A row of the symbol table, 88-90: name, type and value. *)
Definition symbol_row : Type := (str * symtype * pyval)%type.
(** A row of the attribute panel, 142-150: the group it is in ([UNK_ATT]: none), the name, and
    the columns type and value. *)
Record att_row : Type := AttRow { r_group : ttype; r_name : str; r_type : symtype; r_value : pyval }.

(** Lines of the console. *)
Inductive line : Type :=
| LTokenizing (text : str) | LTokenized (n : nat)
| LParsing | LParsed
| LChecking | LCheckErrors (l : list issue) | LCheckWarnings (l : list issue) | LChecked (r : tc_result)
| LInterpreting | LWarnings (l : list warning) | LResult (name : str)
| LError (e : exc) | LReset.

Record frame : Type := Frame {
  f_text : str;                        (* what the policy box holds *)
  f_box : bool;                        (* the box is enabled *)
  f_heap : heap; f_table : table;      (* symbol_table *)
  f_tokens : option (list token);      (* token_list *)
  f_ast : option ast;                  (* ast *)
  f_checked : option (heap * table);   (* type_check_symbol_table *)
  f_tok_on : bool; f_parse_on : bool; f_check_on : bool; f_opt_on : bool; f_int_on : bool;
  f_token_rows : list token_row; f_node_rows : list node_row; f_symbol_rows : list symbol_row;
  f_att_rows : list att_row;
  f_console : list line;
  f_last_id : Z                        (* ASTNode._last_id of the process *)
}.

(** [except HGPLError]. *)
Definition is_hgpl (e : exc) : bool :=
  match e with ELexer _ | EParser _ | ETypeChecker _ _ | EInterp _ | EInterpWarning _ => true | _ => false end.

(** ** Tables *)

(** 66-68 *)
Definition token_rows (ts : list token) : list token_row := map (fun t => (t_type t, t_val t, t_pos t)) ts.

Definition show_result (h : heap) (r : option rval) : shown :=
  match r with None => ShownNone | Some (RV v) => ShownValue v | Some (RSym l) => ShownSymbol (hget h l) end.
(** 92-95, _insert_ast_nodes *)
Fixpoint node_rows (h : heap) (a : ast) : node_row :=
  let 'Node _ t _ r ks := a in NodeRow (t_type t) (t_val t) (show_result h r) (map (node_rows h) ks).

(** [symbol.type.name] is an AttributeError for the type None. *)
Definition type_name (t : symtype) : res symtype := match t with ST_NONE => Err EAttribute | _ => Ok t end.
(** 88-90 *)
Definition symbol_rows (h : heap) (tb : table) : res (list symbol_row) :=
  mapM (fun e => t <- type_name (sy_type (hget h (snd e))) ;;
                 Ok (sy_name (hget h (snd e)), t, sy_value (hget h (snd e)))) tb.

(** 142-150 *)
Definition att_group (t : ttype) : ttype :=
  match t with USR_ATT => USR_ATT | OBJ_ATT => OBJ_ATT | ENV_ATT => ENV_ATT | ADM_ATT => ADM_ATT
             | CON_ATT => CON_ATT | _ => UNK_ATT end.
Definition att_rows (h : heap) (tb : table) : res (list att_row) :=
  mapM (fun e => let s := hget h (snd e) in
                 t <- type_name (sy_type s) ;;
                 Ok (AttRow (att_group (sy_att_type s)) (sy_att_name s) t (sy_value s))) tb.

(** 37-46, LexerDemoFrame.__init__ for a symbol table; [last] is ASTNode._last_id. *)
Definition frame_new (h : heap) (tb : table) (last : Z) : res frame :=
  rows <- att_rows h tb ;;
  Ok (Frame [] true h tb None None None true false false false false [] [] [] rows [] last).

(** ** Editing attributes *)

(** Printable ASCII other than quotes and the backslash: repr() puts it between single quotes. *)
Definition plain_char (c : N) : bool :=
  ((32 <=? c) && (c <=? 126) && negb (c =? 39) && negb (c =? 34) && negb (c =? 92))%N.
Definition plain_str (s : str) : bool := forallb plain_char s.
Fixpoint join (sep : str) (l : list str) : str :=
  match l with [] => [] | [x] => x | x :: r => x ++ sep ++ join sep r end.

Section WithPython.
Variable U : unicode.
Variable P : pytext.

Definition py_repr (v : pyval) : str :=
  match v with
  | VInt z => str_of_Z z
  | VFloat f => show_float P f
  | VStr s => if plain_str s then lit "'" ++ s ++ lit "'" else show_str P s
  | v => show_other P v
  end.
(** str() of an attribute value; ASTResult.__str__ is hgpl/ast.py 90-91. *)
Definition py_str (v : pyval) : str :=
  match v with
  | VNone => lit "None"
  | VStr s => s
  | VBool b => if b then lit "True" else lit "False"
  | VTri TRUE => lit "TRUE" | VTri FALSE => lit "FALSE" | VTri UNDEF => lit "UNDEF"
  | VSet [] => lit "set()"
  | VSet l => lit "{" ++ join (lit ", ") (map py_repr (set_order P l)) ++ lit "}"
  | v => py_repr v
  end.
(** What a Treeview gives back for a column: a text that int() reads comes back as an int
    (tkinter.ttk, _convert_stringval), which 26 turns into text again. *)
Definition dialog_text (v : pyval) : str :=
  match int_base U 10 (py_str v) with Ok z => str_of_Z z | Err _ => py_str v end.

(** [value.replace('{', '').replace('}', '').replace('\'', '')], 165 *)
Definition drop_marks (s : str) : str := filter (fun c => negb ((c =? 123) || (c =? 125) || (c =? 39))%N) s.
(** 165; a set is the list of its members, here with repetitions. *)
Definition set_of_text (s : str) : pyval := VSet (map (fun x => VStr (py_strip U x)) (split_on 44 (drop_marks s))).
(** 169-172 *)
Definition bool_of_text (s : str) : bool :=
  let t := py_strip U (py_lower U s) in str_eqb t (lit "true") || str_eqb t (lit "t") || str_eqb t (lit "1").

(** 158-174: the new value, if there is one.  [None] covers a ValueError (which is printed)
    and a type without a rule. *)
Definition new_value (t : symtype) (text : str) : option pyval :=
  match t with
  | ST_INT => match int_base U 10 text with Ok z => Some (VInt z) | Err _ => None end
  | ST_FLOAT => option_map VFloat (read_float P text)
  | ST_SET => Some (set_of_text text)
  | ST_STRING => Some (VStr text)
  | ST_BOOL => Some (VBool (bool_of_text text))
  | _ => None
  end.

(** 155-156 *)
Definition group_prefix (t : ttype) : str :=
  match t with USR_ATT => lit "user." | OBJ_ATT => lit "object." | ENV_ATT => lit "env."
             | ADM_ATT => lit "admin." | CON_ATT => lit "connect." | _ => [] end.

Fixpoint set_nth {A} (i : nat) (x : A) (l : list A) : list A :=
  match l, i with [], _ => [] | _ :: r, O => x :: r | y :: r, S i => y :: set_nth i x r end.

Definition set_atts (f : frame) (h : heap) (rows : list att_row) : frame :=
  Frame (f_text f) (f_box f) h (f_table f) (f_tokens f) (f_ast f) (f_checked f)
        (f_tok_on f) (f_parse_on f) (f_check_on f) (f_opt_on f) (f_int_on f)
        (f_token_rows f) (f_node_rows f) (f_symbol_rows f) rows (f_console f) (f_last_id f).

(** 152-178, _update_att for the [i]-th row: the row is changed first, then the table. *)
Definition update_att (f : frame) (i : nat) (text : str) : frame * option exc :=
  match nth_error (f_att_rows f) i with
  | None => (f, None)
  | Some r =>
      match new_value (r_type r) text with
      | None => (f, None)
      | Some v =>
          let rows := set_nth i (AttRow (r_group r) (r_name r) (r_type r) v) (f_att_rows f) in
          match st_set_value U (f_heap f) (f_table f) (group_prefix (r_group r) ++ r_name r) v with
          | Ok h => (set_atts f h rows, None)
          | Err e => (set_atts f (f_heap f) rows, Some e)
          end
      end
  end.

(** ** Buttons *)

Definition say (f : frame) (l : list line) : frame :=
  Frame (f_text f) (f_box f) (f_heap f) (f_table f) (f_tokens f) (f_ast f) (f_checked f)
        (f_tok_on f) (f_parse_on f) (f_check_on f) (f_opt_on f) (f_int_on f)
        (f_token_rows f) (f_node_rows f) (f_symbol_rows f) (f_att_rows f) (f_console f ++ l) (f_last_id f).

(** Leaving a callback with an exception: an HGPLError is written to the console, any other
    leaves the callback. *)
Definition caught (f : frame) (e : exc) : frame * option exc :=
  if is_hgpl e then (say f [LError e], None) else (f, Some e).

(** 261-296, _command_tokenize *)
Definition command_tokenize (f : frame) : frame * option exc :=
  let f1 := Frame (f_text f) false (f_heap f) (f_table f) None None None
                  (f_tok_on f) false false false false [] [] [] (f_att_rows f)
                  (f_console f ++ [LTokenizing (f_text f)]) (f_last_id f) in
  match lex_text U (f_text f) with
  | Err e => caught f1 e
  | Ok ts =>
      (Frame (f_text f1) (f_box f1) (f_heap f1) (f_table f1) (Some ts) (f_ast f1) (f_checked f1)
             false true (f_check_on f1) (f_opt_on f1) (f_int_on f1)
             (token_rows ts) (f_node_rows f1) (f_symbol_rows f1) (f_att_rows f1)
             (f_console f1 ++ [LTokenized (List.length ts)]) (f_last_id f1), None)
  end.

(** 298-328, _command_parse.  Parser(None) raises a plain Exception (hgpl/parsing.py 19-21).
    The node counter after a failed parse is not modelled; it stays. *)
Definition command_parse (f : frame) : frame * option exc :=
  let f1 := Frame (f_text f) (f_box f) (f_heap f) (f_table f) (f_tokens f) None None
                  false (f_parse_on f) false false false (f_token_rows f) [] [] (f_att_rows f)
                  (f_console f ++ [LParsing]) (f_last_id f) in
  match (match f_tokens f with Some ts => parse U ts (f_last_id f) | None => Err EGeneric end) with
  | Err e => caught f1 e
  | Ok (a, last) =>
      (Frame (f_text f1) (f_box f1) (f_heap f1) (f_table f1) (f_tokens f1) (Some a) (f_checked f1)
             (f_tok_on f1) false true (f_opt_on f1) (f_int_on f1)
             (f_token_rows f1) [node_rows (f_heap f1) a] (f_symbol_rows f1) (f_att_rows f1)
             (f_console f1 ++ [LParsed]) last, None)
  end.

Definition if_any {A} (l : list A) (x : line) : list line := match l with [] => [] | _ => [x] end.

(** 330-373, _command_type_check.  TypeChecker(None) fails on the missing tree.  An
    exception of the table of symbols (366) comes after the checker's table is kept and its
    lines are written; the rows inserted before it are not kept here. *)
Definition command_type_check (f : frame) : frame * option exc :=
  let f1 := Frame (f_text f) (f_box f) (f_heap f) (f_table f) (f_tokens f) (f_ast f) None
                  false false (f_check_on f) false false (f_token_rows f) (f_node_rows f) [] (f_att_rows f)
                  (f_console f ++ [LChecking]) (f_last_id f) in
  match f_ast f with
  | None => (f1, Some EAttribute)
  | Some a =>
      let '(c, r) := check U (checker_new a) 4 in
      match r with
      | Crashed e => caught f1 e
      | RaisedIssue i => (say f1 [LError (ETypeChecker (is_type i) (is_pos i))], None)
      | Returned _ =>
          let h := ts_heap (tc_state c) in
          let tb := ts_table (tc_state c) in
          let lines := if_any (get_errors c) (LCheckErrors (get_errors c))
                       ++ if_any (get_warnings c) (LCheckWarnings (get_warnings c))
                       ++ [LChecked (get_result c)] in
          let pass := match get_result c with ResPass | ResWarn => true | _ => false end in
          let made (on check : bool) (rows : list symbol_row) :=
            Frame (f_text f1) (f_box f1) (f_heap f1) (f_table f1) (f_tokens f1) (f_ast f1) (Some (h, tb))
                  (f_tok_on f1) (f_parse_on f1) check (f_opt_on f1) on
                  (f_token_rows f1) (f_node_rows f1) rows (f_att_rows f1) (f_console f1 ++ lines) (f_last_id f1) in
          match symbol_rows h tb with
          | Err e => (made false (f_check_on f1) [], Some e)
          | Ok rows => (made pass (if pass then false else f_check_on f1) rows, None)
          end
      end
  end.

(** 375-379, _command_optimize *)
Definition command_optimize (f : frame) : frame * option exc :=
  (Frame (f_text f) (f_box f) (f_heap f) (f_table f) (f_tokens f) (f_ast f) (f_checked f)
         false false false (f_opt_on f) false
         (f_token_rows f) (f_node_rows f) (f_symbol_rows f) (f_att_rows f) (f_console f) (f_last_id f), None).

(** 403-406: values and types of the attributes are copied into the checker's symbols. *)
Fixpoint copy_values (h : heap) (tb : table) (ch : heap) (ct : table) (todo : table) : res heap :=
  match todo with
  | [] => Ok ch
  | (_, l) :: r =>
      let name := sy_name (hget ch l) in
      if st_exists U tb name then
        v <- st_lookup_value U h tb name ;;
        ch1 <- st_set_value U ch ct name v ;;
        '(ch2, _) <- st_switch_type U ch1 ct name (match st_lookup_type U h tb name with Some t => t | None => ST_NONE end) ;;
        copy_values h tb ch2 ct r
      else copy_values h tb ch ct r
  end.

(** [result.name], 410: the name of an ASTResult or of a Symbol; AttributeError for others. *)
Definition result_name (h : heap) (r : option rval) : res str :=
  match r with
  | Some (RV (VTri TRUE)) => Ok (lit "TRUE") | Some (RV (VTri FALSE)) => Ok (lit "FALSE")
  | Some (RV (VTri UNDEF)) => Ok (lit "UNDEF")
  | Some (RSym l) => Ok (sy_name (hget h l))
  | _ => Err EAttribute
  end.

(** 381-419, _command_interpret.  Tree and table are the ones saved before (deepcopy) again
    afterwards, whatever happened: here they never change.  [tree] is the one kept. *)
Definition command_interpret (f : frame) : frame * option exc :=
  let after (tree : option ast) (lines : list line) (nodes : list node_row) (syms : list symbol_row) :=
    Frame (f_text f) (f_box f) (f_heap f) (f_table f) (f_tokens f) tree (f_checked f)
          false false false false (f_int_on f) (f_token_rows f) nodes syms (f_att_rows f)
          (f_console f ++ LInterpreting :: lines) (f_last_id f) in
  let stay (lines : list line) := after (f_ast f) lines (f_node_rows f) (f_symbol_rows f) in
  match f_ast f, f_checked f with
  | Some a, Some (ch, ct) =>
      let '(it, r) := evaluate U (f_heap f) (interp_new a) (Some (f_table f)) (Some 3) in
      match r with
      | Err e => if is_hgpl e then (stay [LError e], None) else (stay [], Some e)
      | Ok v =>
          let ws := if_any (i_warnings it) (LWarnings (i_warnings it)) in
          match copy_values (f_heap f) (f_table f) ch ct ct with
          | Err e => if is_hgpl e then (stay (ws ++ [LError e]), None) else (stay ws, Some e)
          | Ok ch' =>
              match result_name (f_heap f) v with
              | Err e => (stay ws, Some e)
              | Ok name =>
                  match symbol_rows ch' ct with
                  | Err e => (after (f_ast f) (ws ++ [LResult name]) (f_node_rows f) [], Some e)
                  | Ok rows => (after (f_ast f) (ws ++ [LResult name]) [node_rows (f_heap f) (i_ast it)] rows, None)
                  end
              end
          end
      end
  | _, _ => (stay [], Some EAttribute)
  end.

(** 421-448, _command_reset *)
Definition command_reset (f : frame) : frame * option exc :=
  (Frame (f_text f) true (f_heap f) (f_table f) None None None true false false false false [] [] []
         (f_att_rows f) [LReset] (f_last_id f), None).

(** ** Using the program *)

Inductive event : Type :=
| PressTokenize | PressParse | PressTypeCheck | PressOptimize | PressInterpret | PressReset
| EnterPolicy (text : str)            (* typing in the box or choosing an example *)
| SubmitValue (row : nat) (text : str). (* a dialog of a row of the panel *)

Definition enter (f : frame) (text : str) : frame :=
  Frame text (f_box f) (f_heap f) (f_table f) (f_tokens f) (f_ast f) (f_checked f)
        (f_tok_on f) (f_parse_on f) (f_check_on f) (f_opt_on f) (f_int_on f)
        (f_token_rows f) (f_node_rows f) (f_symbol_rows f) (f_att_rows f) (f_console f) (f_last_id f).

Definition step (f : frame) (e : event) : frame * option exc :=
  match e with
  | PressTokenize => if f_tok_on f then command_tokenize f else (f, None)
  | PressParse => if f_parse_on f then command_parse f else (f, None)
  | PressTypeCheck => if f_check_on f then command_type_check f else (f, None)
  | PressOptimize => if f_opt_on f then command_optimize f else (f, None)
  | PressInterpret => if f_int_on f then command_interpret f else (f, None)
  | PressReset => command_reset f
  | EnterPolicy t => if f_box f then (enter f t, None) else (f, None)
  | SubmitValue i t => update_att f i t
  end.
Definition use (f : frame) (l : list event) : frame := fold_left (fun f e => fst (step f e)) l f.

End WithPython.

(** 463-466, default_policies *)
Definition default_policies : list str :=
  [lit "user.id IN {5, 72, 4, 6, 4} OR user.id = object.owner";
   lit "object.required_perms SUBSET user.perms AND user.age >= 18";
   lit "user.admin OR (user.role = ""doctor"" AND user.id != object.patient)"].

(** 469-535, default_symbol_table *)
Definition default_types : list (str * symtype) :=
  [(lit "user.id", ST_INT); (lit "object.owner", ST_INT); (lit "object.required_perms", ST_SET);
   (lit "user.perms", ST_SET); (lit "user.age", ST_INT); (lit "user.admin", ST_BOOL);
   (lit "user.role", ST_STRING); (lit "object.patient", ST_INT); (lit "user.user_type", ST_SET);
   (lit "object.object_type", ST_STRING); (lit "object.restricted", ST_BOOL);
   (lit "user.enrolled_in", ST_SET); (lit "object.req_course", ST_SET); (lit "user.teaching", ST_SET);
   (lit "object.depart", ST_SET); (lit "user.depart", ST_SET); (lit "env.time_of_day_hour", ST_INT);
   (lit "env.day_of_week", ST_INT); (lit "connect.ip_octet_1", ST_INT); (lit "connect.ip_octet_2", ST_INT);
   (lit "connect.ip_octet_3", ST_INT); (lit "connect.ip_octet_4", ST_INT); (lit "user.string", ST_STRING);
   (lit "user.float", ST_FLOAT); (lit "user.int", ST_INT); (lit "user.set", ST_SET);
   (lit "admin.string", ST_STRING); (lit "admin.int", ST_INT); (lit "admin.float", ST_FLOAT);
   (lit "admin.set", ST_SET)].

Definition strs (l : list string) : pyval := VSet (map (fun s => VStr (lit s)) l).
Definition ints (l : list Z) : pyval := VSet (map VInt l).
Definition default_values : list (str * pyval) :=
  [(lit "user.id", VInt 1337); (lit "object.owner", VInt 1337); (lit "object.required_perms", ints [1; 5; 3]);
   (lit "user.perms", ints [2; 5; 4; 3; 0; 1]); (lit "user.age", VInt 30); (lit "user.admin", VBool true);
   (lit "user.role", VStr (lit "admin")); (lit "object.patient", VInt 1337);
   (lit "user.user_type", strs ["admin"; "grad"; "staff"]%string); (lit "object.object_type", VStr (lit "book"));
   (lit "object.restricted", VBool false); (lit "user.enrolled_in", strs ["CS1032"; "CS2034"]%string);
   (lit "object.req_course", strs ["CS4030"; "CS2034"]%string);
   (lit "user.teaching", strs ["CS3090"; "CS1032"]%string);
   (lit "object.depart", strs ["COMPSCI"; "SOFTENG"]%string); (lit "user.depart", strs ["COMPSCI"]%string);
   (lit "env.time_of_day_hour", VInt 9); (lit "env.day_of_week", VInt 4); (lit "connect.ip_octet_1", VInt 192);
   (lit "connect.ip_octet_2", VInt 168); (lit "connect.ip_octet_3", VInt 1); (lit "connect.ip_octet_4", VInt 110);
   (lit "user.string", VStr (lit "hello world")); (lit "user.float", VFloat (float_of_dec false 314 2));
   (lit "user.int", VInt 3); (lit "user.set", ints [1; 2; 3]);
   (lit "admin.string", VStr (lit "this is an admin string att")); (lit "admin.int", VInt (-1234));
   (lit "admin.float", VFloat (float_of_dec true 11 1));
   (lit "admin.set", strs ["this"; "is"; "a"; "set in an admin"; "att"]%string)].
Definition default_table (U : unicode) : res (heap * table) :=
  b <- load_mixed (builder_new default_types) default_values ;; Ok (build_table U b []).
