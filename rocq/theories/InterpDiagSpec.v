(** * InterpDiagSpec: what evaluating a policy should say (specification) *)

From Coq Require Import NArith ZArith List Bool String.
From Verif Require Import PyBase PyNum Lexer Values Ast Grammar Syntax Symbols Interp EvalSpec InterpDiag.
Import ListNotations.
Open Scope Z_scope.

(** Something that happens while a policy is evaluated: a warning, or an exception. *)
Inductive event : Type := Says (n : note) | Stops (f : fault).

(** The name of an attribute in a message: as it is written in the policy. *)
Definition cat_word (c : cat) : string :=
  match c with
  | CatUser => "user." | CatObject => "object." | CatEnv => "env." | CatAdmin => "admin." | CatConnect => "connect."
  end.
Definition att_said (k : wkind) (c : cat) (n : str) : str :=
  match k with
  | WNoValue => lit "Interpreter Warning, the attribute " ++ lit (cat_word c) ++ n ++ lit " has no value."
  | WBadType => lit "Interpreter Warning, the attribute " ++ lit (cat_word c) ++ n ++ lit " has an invalid type."
  | _ => lit "Interpreter Warning, unknown attribute " ++ lit (cat_word c) ++ n ++ lit " found in policy."
  end.

(** The message and the rule of a comparison that has no meaning. *)
Definition cmp_said (o : cmp) : str * str :=
  match o with
  | OpEq | OpNe => (lit "Interpreter Warning, invalid type used in '=' or '!=' operation.", lit "eq_op")
  | OpGt => (lit "Interpreter Warning, invalid type used in '>' operation.", lit "qt_op")
  | OpLt => (lit "Interpreter Warning, invalid type used in '<' operation.", lit "lt_op")
  | OpGe => (lit "Interpreter Warning, invalid type used in '>=' operation.", lit "gte_op")
  | OpLe => (lit "Interpreter Warning, invalid type used in '<=' operation.", lit "lte_op")
  | OpIn => (lit "Interpreter Warning, invalid type used in 'IN' operation.", lit "in_op")
  | OpSubset => (lit "Interpreter Warning, invalid type used in 'SUBSET' operation.", lit "subset_op")
  end.

Definition bad_node (t : token) : event :=
  Stops (FInterp (lit "Interpreter Error, invalid node type.") (lit "evaluate_node") (t_pos t)).
Definition bad_child (rule : string) (t : token) : event :=
  Stops (FInterp (lit "Interpreter Error, invalid child node or invalid child node result.") (lit rule) (t_pos t)).

Section Meaning.
Variable E : env.

(** An attribute: it is unknown, or known and has no value or one that is not of its type. *)
Definition att_events (t : token) (c : cat) (n : str) : list event :=
  map (fun k => Says (Note k (att_said k c n) (lit "evaluate_att_node") (t_pos t) VNone VNone)) (att_warns E c n).

(** A literal: 0, 0.0 and "" are exceptions. *)
Definition atom_events (p : ptree) : list event :=
  let 'PT _ t _ := p in
  match abs_atom p with Some a => if zero_atom a then [bad_node t] else [] | None => [] end.

Definition operand_events (p : ptree) : list event :=
  let 'PT _ t ks := p in
  match abs_operand p with
  | Some (OAtt c n) => att_events t c n
  | Some (OSet _) => flat_map atom_events ks
  | Some (OAtom _) => atom_events p
  | None => []
  end.

(** An operand as it is written or stored. *)
Definition raw (x : operand) : pyval :=
  match x with
  | OAtom a => atom_val a
  | OSet l => VList (map atom_val l)
  | OAtt c n => match E c n with Some (_, v) => v | None => VNone end
  end.
(** Next to the other operand: a collection from an attribute is a set, and so is a single value from
    an attribute next to a collection or another attribute. *)
Definition seen (a b : okind) (u : pyval) : pyval :=
  match a, b with
  | KColl l, _ => VSet l
  | KScal _, (KLit _ | KColl _ | KScal _) => VSet [u]
  | _, _ => u
  end.
Definition members (v : pyval) : pyval := match v with VList l => VSet l | _ => v end.
(** The two values a warning about a comparison carries. *)
Definition carried (o : cmp) (a b : okind) (u v : pyval) : pyval * pyval :=
  match o with
  | OpGt | OpLt | OpGe | OpLe => (u, v)
  | OpEq | OpNe => (seen a b u, seen b a v)
  | OpIn => (match a with KScal _ => u | _ => seen a b u end, seen b a v)
  | OpSubset => (members (seen a b u), members (seen b a v))
  end.

(** The comparison itself, when both operands are defined. *)
Definition cmp_events (o : cmp) (a b : okind) (u v : pyval) : list event :=
  if undefined a || undefined b then []
  else if hash_fault o a b then [Stops (FOther EType)]
  else match cmp_bool o a b with
       | Some _ => []
       | None => let '(m, r) := cmp_said o in let '(x, y) := carried o a b u v in [Says (Note WOperator m r (-1) x y)]
       end.

(** An attribute that is used as a truth value but is a number, a string or a collection. *)
Definition no_truth (p : ptree) : bool :=
  match abs p with
  | Some (PAtt c n) => match att_kind (E c n) with KScal _ | KColl _ => true | _ => false end
  | _ => false
  end.

(** The events of a policy: of its parts from left to right, then of itself. *)
Fixpoint events (p : ptree) : list event :=
  match p with
  | PT CBoolVal t _ => match abs_tri (t_val t) with Some TRUE => [] | _ => [bad_node t] end
  | PT CNot t [k] => events k ++ if no_truth k then [bad_child "evaluate_not_node" t] else []
  | PT CBoolOp t [l; r] => events l ++ events r ++ if no_truth l || no_truth r then [bad_child "evaluate_bool_op_node" t] else []
  | PT COp t [l; r] =>
      operand_events l ++ operand_events r ++
      match abs_cmp (t_val t), abs_operand l, abs_operand r with
      | Some o, Some a, Some b => cmp_events o (operand_kind E a) (operand_kind E b) (raw a) (raw b)
      | _, _, _ => []
      end
  | _ => match abs_operand p with Some (OAtt c n) => let 'PT _ t _ := p in att_events t c n | _ => [] end
  end.
(** A policy that is only a constant is an exception. *)
Definition root_events (p : ptree) : list event :=
  match p with PT CBoolVal t _ => [bad_node t] | _ => events p end.

End Meaning.

(** What is said until something stops the evaluation. *)
Fixpoint told (l : list event) : list note * option fault :=
  match l with
  | [] => ([], None)
  | Says n :: r => let '(ns, f) := told r in (n :: ns, f)
  | Stops f :: _ => ([], Some f)
  end.
