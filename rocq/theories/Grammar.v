(** * Grammar: the HGPL v2 grammar over tokens (specification)

    Transcribed from hgpl/docs/HGPL_ABNF_V2.txt, left recursion included.  One
    documented deviation: a boolean is not an [atomic] constant (the TODO of that
    file and of hgpl/parsing.py 84). *)

From Coq Require Import NArith ZArith List Bool String.
From Verif Require Import PyBase PyNum Lexer Values Ast.
Import ListNotations.
Open Scope Z_scope.

(** Syntax tree of a derivation: node class, token, children. *)
Inductive ptree : Type := PT (cls : nclass) (tok : token) (kids : list ptree).

(** att_name *)
Inductive g_att : list token -> ptree -> Prop :=
| ga_user t : t_type t = USR_ATT -> g_att [t] (PT CUsr t [])
| ga_object t : t_type t = OBJ_ATT -> g_att [t] (PT CObj t [])
| ga_env t : t_type t = ENV_ATT -> g_att [t] (PT CEnv t [])
| ga_admin t : t_type t = ADM_ATT -> g_att [t] (PT CAdm t [])
| ga_connect t : t_type t = CON_ATT -> g_att [t] (PT CCon t []).

(** atomic *)
Inductive g_atomic : list token -> ptree -> Prop :=
| gc_int t : t_type t = INT -> g_atomic [t] (PT CInt t [])
| gc_float t : t_type t = FLOAT -> g_atomic [t] (PT CFloat t [])
| gc_string t : t_type t = STRING -> g_atomic [t] (PT CString t [])
| gc_null t : t_type t = NULL -> g_atomic [t] (PT CNull t []).

(** setval = atomic / atomic "," setval *)
Inductive g_setval : list token -> list ptree -> Prop :=
| gsv_one u a : g_atomic u a -> g_setval u [a]
| gsv_more u a c v l : g_atomic u a -> t_type c = COMMA -> g_setval v l ->
                       g_setval (u ++ c :: v) (a :: l).

(** set = "{" "}" / "{" setval "}" *)
Inductive g_set : list token -> ptree -> Prop :=
| gs_empty lb rb : t_type lb = LSET -> t_type rb = RSET ->
                   g_set [lb; rb] (PT (CSet (Some rb)) lb [])
| gs_some lb u l rb : t_type lb = LSET -> g_setval u l -> t_type rb = RSET ->
                      g_set (lb :: u ++ [rb]) (PT (CSet (Some rb)) lb l).

(** var = const / att_name,  const = atomic / set *)
Inductive g_var : list token -> ptree -> Prop :=
| gv_atomic u a : g_atomic u a -> g_var u a
| gv_set u a : g_set u a -> g_var u a
| gv_att u a : g_att u a -> g_var u a.

(** bool_var = boolean / att_name *)
Inductive g_boolvar : list token -> ptree -> Prop :=
| gb_bool t : t_type t = BOOL -> g_boolvar [t] (PT CBoolVal t [])
| gb_att u a : g_att u a -> g_boolvar u a.

Definition is_word (ty : ttype) (w : string) (t : token) : Prop :=
  t_type t = ty /\ t_val t = TStr (lit w).

Inductive g_exp : list token -> ptree -> Prop :=
| ge_op u l o v r : g_var u l -> t_type o = OP -> g_var v r ->
                    g_exp (u ++ o :: v) (PT COp o [l; r])
| ge_bool u b : g_boolvar u b -> g_exp u b
| ge_not_bool t u b : t_type t = NOT_OP -> g_boolvar u b -> g_exp (t :: u) (PT CNot t [b])
| ge_paren lp u p rp : t_type lp = LPARN -> g_policy u p -> t_type rp = RPARN ->
                       g_exp (lp :: u ++ [rp]) p
| ge_not_paren t lp u p rp : t_type t = NOT_OP -> t_type lp = LPARN -> g_policy u p ->
                             t_type rp = RPARN ->
                             g_exp (t :: lp :: u ++ [rp]) (PT CNot t [p])
with g_term : list token -> ptree -> Prop :=
| gt_exp u e : g_exp u e -> g_term u e
| gt_and u l a v r : g_term u l -> is_word BOOL_OP "AND" a -> g_exp v r ->
                     g_term (u ++ a :: v) (PT CBoolOp a [l; r])
with g_policy : list token -> ptree -> Prop :=
| gp_term u e : g_term u e -> g_policy u e
| gp_or u l a v r : g_policy u l -> is_word BOOL_OP "OR" a -> g_term v r ->
                    g_policy (u ++ a :: v) (PT CBoolOp a [l; r]).

Scheme g_exp_mind := Minimality for g_exp Sort Prop
with g_term_mind := Minimality for g_term Sort Prop
with g_policy_mind := Minimality for g_policy Sort Prop.
Combined Scheme g_mind from g_exp_mind, g_term_mind, g_policy_mind.

(** Prefixes of policies after which an expression has to start. *)
Inductive pre_exp : list token -> Prop :=
| pe_here : pre_exp []
| pe_paren lp u : t_type lp = LPARN -> pre_policy u -> pre_exp (lp :: u)
| pe_not_paren t lp u : t_type t = NOT_OP -> t_type lp = LPARN -> pre_policy u ->
                        pre_exp (t :: lp :: u)
with pre_term : list token -> Prop :=
| pt_first u : pre_exp u -> pre_term u
| pt_and v l a u : g_term v l -> is_word BOOL_OP "AND" a -> pre_exp u -> pre_term (v ++ a :: u)
with pre_policy : list token -> Prop :=
| pp_first u : pre_term u -> pre_policy u
| pp_or v l a u : g_policy v l -> is_word BOOL_OP "OR" a -> pre_term u -> pre_policy (v ++ a :: u).

Scheme pre_exp_mind := Minimality for pre_exp Sort Prop
with pre_term_mind := Minimality for pre_term Sort Prop
with pre_policy_mind := Minimality for pre_policy Sort Prop.
Combined Scheme pre_mind from pre_exp_mind, pre_term_mind, pre_policy_mind.

(** A whole token list: START, a policy, END; tokens after END are not looked at. *)
Definition derives (ts : list token) (p : ptree) : Prop :=
  exists s u e trailing, ts = s :: u ++ e :: trailing /\
  t_type s = START /\ g_policy u p /\ t_type e = END.

(** The object tree of a derivation: nodes are numbered consecutively in
    post-order starting after [n], and hold the result their class starts with. *)
Section WithUnicode.
Variable U : unicode.

Fixpoint build (t : ptree) (n : Z) : res (ast * Z) :=
  let 'PT c tok kids := t in
  '(ks, n1) <- (fix go (l : list ptree) (n : Z) : res (list ast * Z) :=
                  match l with
                  | [] => Ok ([], n)
                  | k :: r => '(a, n1) <- build k n ;; '(b, n2) <- go r n1 ;; Ok (a :: b, n2)
                  end) kids n ;;
  rv <- init_result U c tok ;;
  Ok (Node c tok (n1 + 1) rv ks, n1 + 1).

Fixpoint build_list (l : list ptree) (n : Z) : res (list ast * Z) :=
  match l with
  | [] => Ok ([], n)
  | k :: r => '(a, n1) <- build k n ;; '(b, n2) <- build_list r n1 ;; Ok (a :: b, n2)
  end.

End WithUnicode.

(** Derivation tree of a node: forget ids and results. *)
Fixpoint erase (a : ast) : ptree :=
  let 'Node c t _ _ k := a in PT c t (map erase k).
