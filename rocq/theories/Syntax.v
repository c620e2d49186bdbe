(** * Syntax: abstract policies (specification)

    The policies users write, without positions, node ids or spelling. *)

From Coq Require Import NArith ZArith List Bool String.
From Verif Require Import PyBase PyNum Lexer LexSpec Values Ast Grammar.
Import ListNotations.
Open Scope Z_scope.

Inductive cat : Type := CatUser | CatObject | CatEnv | CatAdmin | CatConnect.
Inductive atom : Type := AInt (z : Z) | AFloat (f : pyfloat) | AStr (s : str) | ANull.
Inductive operand : Type := OAtom (a : atom) | OSet (l : list atom) | OAtt (c : cat) (name : str).
Inductive cmp : Type := OpGt | OpLt | OpEq | OpGe | OpLe | OpNe | OpIn | OpSubset.
Inductive pol : Type :=
| PConst (t : tri)
| PAtt (c : cat) (name : str)
| PCmp (o : cmp) (l r : operand)
| PNot (p : pol)
| PAnd (p q : pol)
| POr (p q : pol).

(** ** Words: the token types and values a policy is written with *)

Definition word := (ttype * tokval)%type.

Definition cat_type (c : cat) : ttype :=
  match c with
  | CatUser => USR_ATT | CatObject => OBJ_ATT | CatEnv => ENV_ATT
  | CatAdmin => ADM_ATT | CatConnect => CON_ATT
  end.
Definition att_word (c : cat) (name : str) : word := (cat_type c, TStr name).
Definition atom_word (a : atom) : word :=
  match a with
  | AInt z => (INT, TInt z) | AFloat f => (FLOAT, TFloat f)
  | AStr s => (STRING, TStr s) | ANull => (NULL, TStr (lit "NULL"))
  end.
Definition cmp_str (o : cmp) : str :=
  match o with
  | OpGt => lit ">" | OpLt => lit "<" | OpEq => lit "=" | OpGe => lit ">=" | OpLe => lit "<="
  | OpNe => lit "!=" | OpIn => lit "IN" | OpSubset => lit "SUBSET"
  end.
Definition tri_str (t : tri) : str :=
  match t with TRUE => lit "TRUE" | FALSE => lit "FALSE" | UNDEF => lit "UNDEF" end.

(** a1 "," a2 "," ... *)
Fixpoint atoms_words (l : list atom) : list word :=
  match l with
  | [] => []
  | [a] => [atom_word a]
  | a :: r => atom_word a :: (COMMA, TNone) :: atoms_words r
  end.
Definition operand_words (o : operand) : list word :=
  match o with
  | OAtom a => [atom_word a]
  | OSet l => (LSET, TNone) :: atoms_words l ++ [(RSET, TNone)]
  | OAtt c n => [att_word c n]
  end.

Definition w_and : word := (BOOL_OP, TStr (lit "AND")).
Definition w_or : word := (BOOL_OP, TStr (lit "OR")).
Definition w_not : word := (NOT_OP, TStr (lit "NOT")).
Definition w_lp : word := (LPARN, TNone).
Definition w_rp : word := (RPARN, TNone).

(** All ways to write a policy, with parentheses where needed or wanted:
    [w_exp] as an operand of AND, [w_term] as an operand of OR, [w_pol] alone. *)
Inductive w_exp : pol -> list word -> Prop :=
| we_const t : w_exp (PConst t) [(BOOL, TStr (tri_str t))]
| we_att c n : w_exp (PAtt c n) [att_word c n]
| we_cmp o l r : w_exp (PCmp o l r) (operand_words l ++ (OP, TStr (cmp_str o)) :: operand_words r)
| we_not_const t : w_exp (PNot (PConst t)) [w_not; (BOOL, TStr (tri_str t))]
| we_not_att c n : w_exp (PNot (PAtt c n)) [w_not; att_word c n]
| we_paren p ws : w_pol p ws -> w_exp p (w_lp :: ws ++ [w_rp])
| we_not p ws : w_pol p ws -> w_exp (PNot p) (w_not :: w_lp :: ws ++ [w_rp])
with w_term : pol -> list word -> Prop :=
| wt_exp p ws : w_exp p ws -> w_term p ws
| wt_and p q ws vs : w_term p ws -> w_exp q vs -> w_term (PAnd p q) (ws ++ w_and :: vs)
with w_pol : pol -> list word -> Prop :=
| wp_term p ws : w_term p ws -> w_pol p ws
| wp_or p q ws vs : w_pol p ws -> w_term q vs -> w_pol (POr p q) (ws ++ w_or :: vs).

Scheme w_exp_mind := Minimality for w_exp Sort Prop
with w_term_mind := Minimality for w_term Sort Prop
with w_pol_mind := Minimality for w_pol Sort Prop.
Combined Scheme w_mind from w_exp_mind, w_term_mind, w_pol_mind.

(** ** The policy a syntax tree stands for *)

Definition abs_cat (c : nclass) : option cat :=
  match c with
  | CUsr => Some CatUser | CObj => Some CatObject | CEnv => Some CatEnv
  | CAdm => Some CatAdmin | CCon => Some CatConnect | _ => None
  end.
Definition abs_atom (p : ptree) : option atom :=
  match p with
  | PT CInt (Tok _ _ (TInt z)) [] => Some (AInt z)
  | PT CFloat (Tok _ _ (TFloat f)) [] => Some (AFloat f)
  | PT CString (Tok _ _ (TStr s)) [] => Some (AStr s)
  | PT CNull _ [] => Some ANull
  | _ => None
  end.
Fixpoint optM {A B} (f : A -> option B) (l : list A) : option (list B) :=
  match l with
  | [] => Some []
  | x :: r => match f x, optM f r with Some y, Some ys => Some (y :: ys) | _, _ => None end
  end.
Definition abs_operand (p : ptree) : option operand :=
  match p with
  | PT (CSet _) _ ks => option_map OSet (optM abs_atom ks)
  | PT c (Tok _ _ v) ks =>
      match abs_cat c, v, ks with
      | Some k, TStr s, [] => Some (OAtt k s)
      | Some _, _, _ => None
      | None, _, _ => option_map OAtom (abs_atom p)
      end
  end.
Definition abs_cmp (v : tokval) : option cmp :=
  match v with
  | TStr s => find (fun o => str_eqb s (cmp_str o)) [OpGt; OpLt; OpEq; OpGe; OpLe; OpNe; OpIn; OpSubset]
  | _ => None
  end.
Definition abs_tri (v : tokval) : option tri :=
  match v with
  | TStr s => find (fun t => str_eqb s (tri_str t)) [TRUE; FALSE; UNDEF]
  | _ => None
  end.

Fixpoint abs (p : ptree) : option pol :=
  match p with
  | PT CBoolVal t [] => option_map PConst (abs_tri (t_val t))
  | PT CNot _ [k] => option_map PNot (abs k)
  | PT COp t [l; r] =>
      match abs_cmp (t_val t), abs_operand l, abs_operand r with
      | Some o, Some a, Some b => Some (PCmp o a b)
      | _, _, _ => None
      end
  | PT CBoolOp t [l; r] =>
      match abs l, abs r with
      | Some a, Some b =>
          if tokval_eqb (t_val t) (TStr (lit "AND")) then Some (PAnd a b)
          else if tokval_eqb (t_val t) (TStr (lit "OR")) then Some (POr a b)
          else None
      | _, _ => None
      end
  | PT c t [] =>
      match abs_cat c, t_val t with
      | Some k, TStr s => Some (PAtt k s)
      | _, _ => None
      end
  | _ => None
  end.

(** ** Printing *)

(** A minimal-parentheses printer; [lvl] 0: operand of nothing, 1: of OR, 2: of AND. *)
Definition parens (b : bool) (ws : list word) : list word :=
  if b then w_lp :: ws ++ [w_rp] else ws.

Fixpoint print_words (lvl : nat) (p : pol) : list word :=
  match p with
  | PConst t => [(BOOL, TStr (tri_str t))]
  | PAtt c n => [att_word c n]
  | PCmp o l r => operand_words l ++ (OP, TStr (cmp_str o)) :: operand_words r
  | PNot p =>
      match p with
      | PConst _ | PAtt _ _ => w_not :: print_words 0 p
      | _ => w_not :: w_lp :: print_words 0 p ++ [w_rp]
      end
  | PAnd p q => parens (2 <=? lvl)%nat (print_words 1 p ++ w_and :: print_words 2 q)
  | POr p q => parens (1 <=? lvl)%nat (print_words 0 p ++ w_or :: print_words 1 q)
  end.

(** Decimal digits. *)
Fixpoint digs (fuel : nat) (n : N) : str :=
  match fuel with
  | O => []
  | S f => if (n <? 10)%N then [48 + n]%N else digs f (n / 10)%N ++ [48 + n mod 10]%N
  end.
Definition decimal (n : N) : str := digs (S (N.to_nat (N.size n))) n.
Definition sign (neg : bool) (s : str) : str := if neg then 45%N :: s else s.

(** [m] / 10^[k], at least one digit before the point. *)
Definition decimal_point (m : N) (k : nat) : str :=
  let ds := decimal m in
  let ds := repeat 48%N (S k - List.length ds) ++ ds in
  let i := (List.length ds - k)%nat in firstn i ds ++ 46%N :: skipn i ds.

Section Spelling.
(** A decimal notation for floats: sign, digits, number of decimals. *)
Variable dec : pyfloat -> bool * N * nat.

Definition spell (w : word) : str :=
  match w with
  | (LSET, _) => lit "{" | (RSET, _) => lit "}" | (COMMA, _) => lit ","
  | (LPARN, _) => lit "(" | (RPARN, _) => lit ")"
  | (INT, TInt z) => sign (z <? 0) (decimal (Z.abs_N z))
  | (FLOAT, TFloat f) => let '(neg, m, k) := dec f in sign neg (decimal_point m k)
  | (STRING, TStr s) => 34%N :: s ++ [34%N]
  | (USR_ATT, TStr s) => lit "user." ++ s | (OBJ_ATT, TStr s) => lit "object." ++ s
  | (ENV_ATT, TStr s) => lit "env." ++ s | (ADM_ATT, TStr s) => lit "admin." ++ s
  | (CON_ATT, TStr s) => lit "connect." ++ s
  | (_, TStr s) => s
  | _ => []
  end.

(** The text of a policy: its words separated by single spaces. *)
Definition print_text (p : pol) : str :=
  List.concat (map (fun w => 32%N :: spell w) (print_words 0 p)).

(** Policies that can be written down. *)
Section Printable.
Variable U : unicode.
Definition name_ok (n : str) : Prop := n <> [] /\ Forall (id_char U) n.
Definition atom_ok (a : atom) : Prop :=
  match a with
  | AInt _ | ANull => True
  | AStr s => Forall (fun c => 32 <= c /\ c <= 126 /\ c <> 34)%N s
  | AFloat f => let '(neg, m, k) := dec f in (1 <= k)%nat /\ f = float_of_dec neg m (N.of_nat k)
  end.
Definition operand_ok (o : operand) : Prop :=
  match o with OAtom a => atom_ok a | OSet l => Forall atom_ok l | OAtt _ n => name_ok n end.
Fixpoint pol_ok (p : pol) : Prop :=
  match p with
  | PConst _ => True
  | PAtt _ n => name_ok n
  | PCmp _ l r => operand_ok l /\ operand_ok r
  | PNot p => pol_ok p
  | PAnd p q | POr p q => pol_ok p /\ pol_ok q
  end.
End Printable.
End Spelling.
