(** * EvalProofs: the interpreter computes the meaning of a policy *)

From Coq Require Import NArith ZArith List Bool String Lia.
From Coq Require Import Floats.SpecFloat.
From Verif Require Import PyBase PyNum Lexer LexSpec LexProofs Values Ast Parser Grammar ParseProofs ParseProofs2 Syntax Symbols Interp EvalSpec.
Import ListNotations.
Open Scope Z_scope.

(** ** Small facts *)

Lemma kand_ok a b : tri_and a b = kand a b.
Proof. destruct a, b; reflexivity. Qed.
Lemma kor_ok a b : tri_or a b = kor a b.
Proof. destruct a, b; reflexivity. Qed.
Lemma knot_ok a : tri_not a = knot a.
Proof. destruct a; reflexivity. Qed.

(** Python sets only have hashable members. *)
Definition value_ok (v : pyval) : Prop :=
  match v with VSet l => forallb hashable l = true | _ => True end.
Definition heap_ok (h : heap) : Prop := Forall (fun s => value_ok (sy_value s)) h.

Lemma heap_ok_get h l : heap_ok h -> value_ok (sy_value (hget h l)).
Proof.
  intros H. unfold hget. destruct (nth_in_or_default l h no_symbol) as [Hi| ->]; [|exact I].
  unfold heap_ok in H. rewrite Forall_forall in H. auto.
Qed.

(** The prefix of an attribute category. *)
Definition cat_prefix (c : cat) : str :=
  match c with
  | CatUser => lit "user." | CatObject => lit "object." | CatEnv => lit "env."
  | CatAdmin => lit "admin." | CatConnect => lit "connect."
  end.

(** The assignment given by a symbol table. *)
Definition table_env (U : unicode) (h : heap) (tb : table) : env := fun c n =>
  option_map (fun l => (sy_type (hget h l), sy_value (hget h l))) (st_lookup U tb (cat_prefix c ++ n)).

(** [result]s as constructors leave them. *)
Fixpoint fresh (U : unicode) (a : ast) : Prop :=
  let 'Node c t _ r ks := a in
  init_result U c t = Ok r /\
  (fix all l := match l with [] => True | k :: r => fresh U k /\ all r end) ks.

Lemma fresh_unfold U c t i r ks :
  fresh U (Node c t i r ks) <-> init_result U c t = Ok r /\ Forall (fresh U) ks.
Proof.
  cbn. assert (E : (fix all l := match l with [] => True | k :: r => fresh U k /\ all r end) ks <-> Forall (fresh U) ks).
  { induction ks as [|k ks IH]; split; auto.
    - intros [H1 H2]. constructor; auto. now apply IH.
    - intros H. inversion H; subst. split; auto. now apply IH. }
  now rewrite E.
Qed.

Lemma build_fresh U p : forall n a n', build U p n = Ok (a, n') -> fresh U a.
Proof.
  induction p as [c t ks IH] using ptree_ind'. intros n a n' H.
  rewrite build_unfold in H. apply bind_ok in H as ([kl n1] & Hk & H).
  apply bind_ok in H as (r & Hr & [= <- _]). apply fresh_unfold. split; auto.
  clear Hr. revert n kl n1 Hk. induction IH as [|p ps Hp IH IH2]; intros n kl n1 Hk.
  - cbn in Hk. injection Hk as <- _. constructor.
  - cbn [build_list] in Hk. apply bind_ok in Hk as ([a n2] & Ha & Hk).
    apply bind_ok in Hk as ([b n3] & Hb & [= <- _]). constructor; eauto.
Qed.

Lemma parse_fresh U ts last a n' : parse U ts last = Ok (a, n') -> fresh U a.
Proof. intros H. apply parse_sound in H as (p & _ & Hb). eapply build_fresh; eauto. Qed.

(** Positions of the tokens of a tree. *)
Fixpoint positions (p : ptree) : list Z := let 'PT _ t ks := p in t_pos t :: flat_map positions ks.

Section WithTable.
Variable U : unicode.
Variable h : heap.
Variable tb : table.
Hypothesis Hh : heap_ok h.

Notation E := (table_env U h tb).

(** ** One operand *)

(** How an operand's kind shows up as a node result. *)
Inductive shows : rval -> okind -> Prop :=
| sh_undef : shows (RV (VTri UNDEF)) KUndef
| sh_tri t : t <> UNDEF -> shows (RV (VTri t)) (KTri t)
| sh_atom a : shows (RV (atom_val a)) (KAtom a)
| sh_lit l : shows (RV (VList (map atom_val l))) (KLit l)
| sh_scal l : isinst_num (sy_value (hget h l)) = true \/ isinst_str (sy_value (hget h l)) = true ->
              shows (RSym l) (KScal (sy_value (hget h l)))
| sh_set l m : sy_value (hget h l) = VSet m -> shows (RSym l) (KColl m)
| sh_list l m : sy_value (hget h l) = VList m -> shows (RSym l) (KColl m).

(** [go] of [_evaluate_node] on one child. *)
Definition visit (k : ast) : ast * list warning * option exc :=
  if rtruthy (n_result k) then (k, [], None) else eval_node U h tb k.

Lemma eval_node_unfold c t i r kids :
  eval_node U h tb (Node c t i r kids) =
  let '(ks, ws, e) := eval_kids U h tb kids in
  match e with
  | Some x => (Node c t i r ks, ws, Some x)
  | None => let '(r', ws2, x) := eval_self U h tb c t r ks in (Node c t i r' ks, ws ++ ws2, x)
  end.
Proof. reflexivity. Qed.

Lemma eval_kids_cons k rest :
  eval_kids U h tb (k :: rest) =
  let '(k', ws1, e1) := visit k in
  match e1 with
  | Some x => (k' :: rest, ws1, Some x)
  | None => let '(rest', ws2, e2) := eval_kids U h tb rest in (k' :: rest', ws1 ++ ws2, e2)
  end.
Proof.
  cbn [eval_kids]. unfold visit. destruct (rtruthy (n_result k)); auto.
Qed.

Lemma eval_att_ok c t old k n :
  abs_cat c = Some k -> t_val t = TStr n ->
  exists rv ws, eval_att U h tb c t old = (Some rv, ws, None) /\
    shows rv (att_kind (E k n)) /\ map w_kind ws = att_warns E k n.
Proof.
  intros Hc Hv.
  assert (Hn : att_to_symbol_name c t = Ok (cat_prefix k ++ n)).
  { unfold att_to_symbol_name. destruct c; cbn in Hc; try discriminate; injection Hc as <-; cbn [bind];
    rewrite Hv; reflexivity. }
  unfold eval_att. rewrite Hn. unfold att_warns, table_env.
  destruct (st_lookup U tb (cat_prefix k ++ n)) as [l|]; cbn [option_map].
  2:{ eexists _, _. split; [reflexivity|]. split; [constructor|reflexivity]. }
  set (s := hget h l). unfold check_val_type.
  destruct (sy_type s) eqn:Et, (sy_value s) eqn:Ev; cbn;
  try (eexists _, _; split; [reflexivity|]; split; [constructor; fail|reflexivity]);
  try (eexists _, _; split; [reflexivity|]; split;
       [first [rewrite <- Ev; apply sh_scal; fold s; rewrite Ev; auto; fail
              |apply sh_list; exact Ev|apply sh_set; exact Ev]|reflexivity]).
  (* BOOL *)
  destruct t0; cbn; (eexists _, _; split; [reflexivity|]; split; [constructor; discriminate|reflexivity]).
Qed.

(** ** Comparison operators *)

Definition setlike (k : okind) : bool :=
  match k with KLit _ | KScal _ | KColl _ => true | _ => false end.

(** [to_val] in terms of kinds. *)
Definition tv (a b : okind) (mode : nat) : res pyval :=
  match a with
  | KUndef => Ok (VTri UNDEF)
  | KTri t => Ok (VTri t)
  | KAtom x => Ok (atom_val x)
  | KLit l => Ok (VList (map atom_val l))
  | KScal v => if setlike b then match mode with O => Ok (VSet [v]) | _ => Ok v end else Ok v
  | KColl l => if unhashable_members a then Err EType else Ok (VSet l)
  end.

Lemma hashable_members l : forallb hashable l = negb (existsb (fun v => negb (hashable v)) l).
Proof. induction l as [|x l IH]; cbn; auto. rewrite IH. now destruct (hashable x). Qed.

Lemma shows_setlike rr b : shows rr b -> is_coll rr || is_sym rr = setlike b.
Proof. destruct 1 as [| t| a| l| l| l m| l m]; try reflexivity. now destruct a. Qed.

Lemma to_val_ok lr rr a b mode : shows lr a -> shows rr b -> to_val h lr rr mode = tv a b mode.
Proof.
  intros Ha Hb. apply shows_setlike in Hb. destruct Ha as [| t| a| l| l Hl| l m Hl| l m Hl]; try reflexivity.
  - cbn [to_val tv]. unfold symbol_to_val. rewrite Hb.
    destruct (sy_value (hget h l)); try (destruct Hl; discriminate); destruct (setlike b), mode; reflexivity.
  - cbn [to_val tv]. unfold symbol_to_val. rewrite Hl. pose proof (heap_ok_get h l Hh) as V.
    rewrite Hl in V. cbn in V. cbn. rewrite hashable_members in V.
    apply negb_true_iff in V. now rewrite V.
  - cbn [to_val tv]. unfold symbol_to_val. rewrite Hl. unfold py_set. rewrite hashable_members. cbn.
    now destruct (existsb _ m).
Qed.

Lemma py_set_atoms l : py_set (map atom_val l) = if existsb is_null l then Err EType else Ok (map atom_val l).
Proof.
  unfold py_set.
  assert (F : forallb hashable (map atom_val l) = negb (existsb is_null l)).
  { induction l as [|x l IH]; cbn; auto. rewrite IH. now destruct x. }
  rewrite F. now destruct (existsb is_null l).
Qed.

(** Expected outcome. *)
Definition expect (o : cmp) (a b : okind) : out :=
  if hash_fault o a b then raise_ EType
  else match cmp_bool o a b with Some x => ret (tri_of_bool x) | None => warn_undef end.

Lemma shows_scal lr v : shows lr (KScal v) -> isinst_num v = true \/ isinst_str v = true.
Proof. inversion 1; subst; auto. Qed.

Lemma sets_eqb_ok l m : sets_eqb l m = set_equal l m.
Proof. reflexivity. Qed.

Ltac split_kinds a b Ha Hb :=
  let t := fresh "t" in let x := fresh "x" in let l := fresh "l" in let v := fresh "v" in
  let t' := fresh "t'" in let y := fresh "y" in let m := fresh "m" in let w := fresh "w" in
  destruct a as [|t|x|l|v|l]; [discriminate| | | | |];
  (destruct b as [|t'|y|m|w|m]; [discriminate| | | | |]);
  try (apply shows_scal in Ha; destruct v; try (destruct Ha; discriminate));
  try (apply shows_scal in Hb; destruct w; try (destruct Hb; discriminate));
  try destruct x; try destruct y.

Ltac split_bools :=
  repeat match goal with
  | |- context [existsb (fun v => negb (hashable v)) ?l] => destruct (existsb (fun v => negb (hashable v)) l)
  | |- context [existsb is_null ?l] => destruct (existsb is_null l)
  end.

Lemma eq_op_ok lr rr a b :
  shows lr a -> shows rr b -> undefined a = false -> undefined b = false ->
  eq_op h lr rr = expect OpEq a b.
Proof.
  intros Ha Hb Ua Ub. unfold eq_op. rewrite (to_val_ok _ _ _ _ 0 Ha Hb), (to_val_ok _ _ _ _ 0 Hb Ha).
  unfold expect. cbn [cmp_bool hash_fault].
  split_kinds a b Ha Hb; cbn [tv setlike lift_res unhashable_members has_null orb atom_val];
  try reflexivity; try (rewrite !py_set_atoms); split_bools; try reflexivity.
Qed.

Lemma neq_op_ok lr rr a b :
  shows lr a -> shows rr b -> undefined a = false -> undefined b = false ->
  neq_op h lr rr = expect OpNe a b.
Proof.
  intros Ha Hb Ua Ub. unfold neq_op. rewrite (eq_op_ok _ _ _ _ Ha Hb Ua Ub).
  unfold expect. cbn [cmp_bool hash_fault].
  destruct (_ || _); [reflexivity|]. destruct (eq_den a b) as [[]|]; reflexivity.
Qed.

Lemma plain_ok lr a : shows lr a ->
  match kval a with Some v => plain h lr = v | None => as_num (plain h lr) = None end.
Proof.
  destruct 1 as [| t| a| l| l Hl| l m Hl| l m Hl]; try reflexivity; cbn; now rewrite Hl.
Qed.

Lemma ineq_op_ok o f lr rr a b :
  (forall x y, f x y = ineq o (num_cmp x y)) ->
  shows lr a -> shows rr b ->
  ineq_op h f lr rr =
  match knum a, knum b with Some x, Some y => ret (tri_of_bool (ineq o (num_cmp x y))) | _, _ => warn_undef end.
Proof.
  intros Hf Ha Hb. apply plain_ok in Ha. apply plain_ok in Hb. unfold ineq_op, knum.
  destruct (kval a) as [v|], (kval b) as [w|]; rewrite ?Ha, ?Hb; auto.
  destruct (as_num v), (as_num w); auto. now rewrite Hf.
Qed.

Lemma in_set_atom x l : in_set (atom_val x) l = if is_null x then Err EType else Ok (member (atom_val x) l).
Proof. unfold in_set. now destruct x. Qed.

Lemma any_in_hashable l m : forallb hashable m = true -> any_in m (VSet l) = Ok (meet l m).
Proof.
  unfold meet. induction m as [|x m IH]; cbn; auto. intros H. apply andb_true_iff in H as [H1 H2].
  unfold in_set. rewrite H1. cbn [bind]. change (in_list x l) with (member x l). destruct (member x l); auto.
Qed.
Lemma any_in_list l m : any_in m (VList l) = Ok (meet l m).
Proof.
  unfold meet. induction m as [|x m IH]; cbn [any_in py_in bind existsb]; auto.
  change (in_list x l) with (member x l). destruct (member x l); auto.
Qed.
Lemma any_in_atoms l m :
  any_in (map atom_val m) (VSet l) = if null_first l m then Err EType else Ok (meet l (map atom_val m)).
Proof.
  unfold meet. induction m as [|x m IH]; cbn [map any_in py_in existsb null_first]; auto.
  rewrite in_set_atom. destruct x; cbn [is_null bind]; auto;
  destruct (member _ l); auto.
Qed.

Lemma in_op_ok lr rr a b :
  shows lr a -> shows rr b -> undefined a = false -> undefined b = false ->
  in_op h lr rr = expect OpIn a b.
Proof.
  intros Ha Hb Ua Ub. unfold in_op. rewrite (to_val_ok _ _ _ _ 1 Ha Hb), (to_val_ok _ _ _ _ 0 Hb Ha).
  unfold expect. cbn [cmp_bool hash_fault].
  split_kinds a b Ha Hb; cbn [tv setlike lift_res unhashable_members has_null orb atom_val];
  try reflexivity;
  repeat match goal with
  | |- context [if existsb (fun v => negb (hashable v)) ?l then _ else _] =>
      destruct (existsb (fun v => negb (hashable v)) l) eqn:?
  end; try reflexivity.
  all: cbn [lift_res coll_elems isinst_num isinst_str isinst_null orb in_den as_set].
  all: try (rewrite any_in_list; reflexivity).
  all: try (rewrite any_in_hashable by reflexivity; reflexivity).
  - rewrite any_in_atoms. now destruct (null_first l m).
  - rewrite any_in_hashable; [reflexivity|]. rewrite hashable_members.
    match goal with H : existsb _ m = false |- _ => now rewrite H end.
Qed.

(** [subset_val] in terms of kinds. *)
Definition sv (a b : okind) : res pyval :=
  match a with
  | KLit l => if has_null a then Err EType else Ok (VSet (map atom_val l))
  | _ => tv a b 0
  end.

Lemma subset_val_ok lr rr a b : shows lr a -> shows rr b -> subset_val h lr rr = sv a b.
Proof.
  intros Ha Hb. pose proof (to_val_ok _ _ _ _ 0 Ha Hb) as T.
  destruct Ha as [| t| a| l| l Hl| l m Hl| l m Hl]; try exact T.
  - destruct a; exact T.
  - cbn [subset_val sv has_null]. rewrite py_set_atoms. now destruct (existsb is_null l).
Qed.

Lemma subset_op_ok lr rr a b :
  shows lr a -> shows rr b -> undefined a = false -> undefined b = false ->
  subset_op h lr rr = expect OpSubset a b.
Proof.
  intros Ha Hb Ua Ub. unfold subset_op. rewrite (subset_val_ok _ _ _ _ Ha Hb), (subset_val_ok _ _ _ _ Hb Ha).
  unfold expect. cbn [cmp_bool hash_fault].
  split_kinds a b Ha Hb;
  cbn [sv tv setlike lift_res unhashable_members has_null orb atom_val];
  try reflexivity; split_bools; try reflexivity.
Qed.

Lemma cmp_str_upper o : py_upper U (cmp_str o) = cmp_str o.
Proof. destruct o; reflexivity. Qed.

Lemma run_op_ok o lr rr a b p :
  shows lr a -> shows rr b -> undefined a = false -> undefined b = false ->
  run_op h (cmp_str o) (cmp_str o) lr rr p = expect o a b.
Proof.
  intros Ha Hb Ua Ub. destruct o.
  - change (ineq_op h num_gtb lr rr = expect OpGt a b). rewrite (ineq_op_ok OpGt num_gtb lr rr a b).
    + unfold expect. cbn. now destruct (knum a), (knum b).
    + intros x y. unfold num_gtb. now destruct (num_cmp x y) as [[]|].
    + exact Ha.
    + exact Hb.
  - change (ineq_op h num_ltb lr rr = expect OpLt a b). rewrite (ineq_op_ok OpLt num_ltb lr rr a b).
    + unfold expect. cbn. now destruct (knum a), (knum b).
    + intros x y. unfold num_ltb. now destruct (num_cmp x y) as [[]|].
    + exact Ha.
    + exact Hb.
  - now apply eq_op_ok.
  - change (ineq_op h num_geb lr rr = expect OpGe a b). rewrite (ineq_op_ok OpGe num_geb lr rr a b).
    + unfold expect. cbn. now destruct (knum a), (knum b).
    + intros x y. unfold num_geb. now destruct (num_cmp x y) as [[]|].
    + exact Ha.
    + exact Hb.
  - change (ineq_op h num_leb lr rr = expect OpLe a b). rewrite (ineq_op_ok OpLe num_leb lr rr a b).
    + unfold expect. cbn. now destruct (knum a), (knum b).
    + intros x y. unfold num_leb. now destruct (num_cmp x y) as [[]|].
    + exact Ha.
    + exact Hb.
  - now apply neq_op_ok.
  - now apply in_op_ok.
  - now apply subset_op_ok.
Qed.

(** ** Operands *)

Lemma truthy_atom a : truthy (atom_val a) = negb (zero_atom a).
Proof.
  destruct a as [z|f|s|]; cbn; auto.
  - unfold num_truth. cbn. now destruct z.
  - unfold num_truth. destruct f as [[]|[]| |[] m e]; reflexivity.
  - now destruct s.
Qed.

Lemma fresh_atom nd a : fresh U nd -> abs_atom (erase nd) = Some a -> n_result nd = Some (RV (atom_val a)).
Proof.
  destruct nd as [c t i r ks]. rewrite fresh_unfold. intros [Hr _] Ha. cbn in Ha.
  destruct t as [ty tp tval]. destruct c, tval; cbn in Ha; try discriminate; destruct (map erase ks);
  try discriminate; injection Ha as <-; cbn in Hr; injection Hr as <-; reflexivity.
Qed.

(** Exceptions the interpreter raises itself: InterpreterError at a token, or TypeError. *)
Definition ierr (p : ptree) (e : exc) : Prop := e = EType \/ exists z, In z (positions p) /\ e = EInterp z.

Lemma visit_atom nd a : fresh U nd -> abs_atom (erase nd) = Some a ->
  visit nd = if zero_atom a then (nd, [], Some (EInterp (t_pos (n_tok nd)))) else (nd, [], None).
Proof.
  intros Hf Ha. pose proof (fresh_atom nd a Hf Ha) as Hr. unfold visit. rewrite Hr. cbn [rtruthy].
  rewrite truthy_atom. destruct (zero_atom a); cbn [negb]; auto.
  destruct nd as [c t i r ks]. cbn in Hr. subst r.
  assert (ks = []) as ->. { destruct ks; auto. cbn in Ha. destruct t as [ty tp []], c; discriminate. }
  cbn in Ha. rewrite eval_node_unfold. cbn [eval_kids].
  destruct t as [ty tp tval], c, tval; try discriminate; reflexivity.
Qed.

Lemma visit_atoms ks l : Forall (fresh U) ks -> optM abs_atom (map erase ks) = Some l ->
  if existsb zero_atom l then
    exists ks' z, eval_kids U h tb ks = (ks', [], Some (EInterp z)) /\ In z (flat_map positions (map erase ks))
  else eval_kids U h tb ks = (ks, [], None) /\ set_members ks = (map atom_val l, true).
Proof.
  intros Hf. revert l. induction Hf as [|k ks Hk Hf IH]; intros l Hl.
  - cbn in Hl. injection Hl as <-. cbn. auto.
  - cbn [map optM] in Hl. destruct (abs_atom (erase k)) as [a|] eqn:Ea; [|discriminate].
    destruct (optM abs_atom (map erase ks)) as [l'|] eqn:El; [|discriminate]. injection Hl as <-.
    specialize (IH _ eq_refl). rewrite eval_kids_cons, (visit_atom _ _ Hk Ea). cbn [existsb].
    destruct (zero_atom a) eqn:Ez; cbn [orb].
    + eexists _, _. split; [reflexivity|]. cbn. apply in_app_iff. left.
      destruct k as [c t i r kk]. cbn. now left.
    + destruct (existsb zero_atom l').
      * destruct IH as (ks' & z & -> & Hz). eexists _, _. split; [reflexivity|]. cbn. apply in_app_iff. auto.
      * destruct IH as [-> Hs]. split; auto. cbn [set_members]. rewrite (fresh_atom _ _ Hk Ea), truthy_atom, Ez, Hs.
        now destruct a.
Qed.

Lemma fresh_no_result c t i r ks : fresh U (Node c t i r ks) ->
  is_att_cls c = true \/ c = COp \/ c = CBoolOp \/ c = CNot \/ (exists e, c = CSet e) -> r = None.
Proof.
  rewrite fresh_unfold. intros [H _] Hc.
  destruct Hc as [Hc|[->|[->|[->|[e ->]]]]]; [destruct c; try discriminate Hc| | | |]; cbn in H; congruence.
Qed.

Lemma visit_none c t i ks :
  visit (Node c t i None ks) = eval_node U h tb (Node c t i None ks).
Proof. reflexivity. Qed.

(** An operand of a comparison. *)
Lemma visit_operand nd o : fresh U nd -> abs_operand (erase nd) = Some o ->
  if zero_operand o then
    exists nd' z, visit nd = (nd', [], Some (EInterp z)) /\ In z (positions (erase nd))
  else
    exists nd' rv ws, visit nd = (nd', ws, None) /\ n_result nd' = Some rv /\
      shows rv (operand_kind E o) /\ map w_kind ws = operand_warns E o.
Proof.
  intros Hf Ho. destruct nd as [c t i r ks].
  assert (Atom : forall a, abs_atom (erase (Node c t i r ks)) = Some a -> o = OAtom a ->
    if zero_operand o then
      exists nd' z, visit (Node c t i r ks) = (nd', [], Some (EInterp z)) /\ In z (positions (erase (Node c t i r ks)))
    else
      exists nd' rv ws, visit (Node c t i r ks) = (nd', ws, None) /\ n_result nd' = Some rv /\
        shows rv (operand_kind E o) /\ map w_kind ws = operand_warns E o).
  { intros a Ha ->. cbn [zero_operand]. rewrite (visit_atom _ _ Hf Ha). destruct (zero_atom a).
    - eexists _, _. split; [reflexivity|]. now left.
    - eexists _, _, _. split; [reflexivity|]. rewrite (fresh_atom _ _ Hf Ha). split; [reflexivity|].
      split; [constructor|reflexivity]. }
  destruct t as [ty tp tval].
  assert (Att : forall k s, abs_cat c = Some k -> tval = TStr s -> ks = [] -> o = OAtt k s ->
    exists nd' rv ws, visit (Node c (Tok ty tp tval) i r ks) = (nd', ws, None) /\ n_result nd' = Some rv /\
        shows rv (operand_kind E o) /\ map w_kind ws = operand_warns E o).
  { intros k s Hc -> -> ->.
    assert (r = None) as ->.
    { eapply fresh_no_result; [exact Hf|]. left. destruct c; try discriminate; reflexivity. }
    rewrite visit_none, eval_node_unfold. cbn [eval_kids].
    destruct (eval_att_ok c (Tok ty tp (TStr s)) None k s Hc eq_refl) as (rv & ws & Ee & Hs & Hw).
    assert (Es : eval_self U h tb c (Tok ty tp (TStr s)) None [] = eval_att U h tb c (Tok ty tp (TStr s)) None).
    { destruct c; try discriminate; reflexivity. }
    rewrite Es, Ee. cbn. eexists _, _, _. split; [reflexivity|]. split; [reflexivity|]. split; [exact Hs|exact Hw]. }
  destruct c; cbn [erase abs_operand] in Ho;
  try (cbn [abs_cat] in Ho; destruct (abs_atom _) as [a|] eqn:Ea; cbn [option_map] in Ho; [|discriminate];
       injection Ho as <-; eapply Atom; reflexivity; fail);
  try (cbn [abs_cat] in Ho; destruct tval; try discriminate; destruct ks; try discriminate;
       injection Ho as <-; cbn [zero_operand]; eapply Att; reflexivity; fail).
  (* set *)
  destruct (optM abs_atom (map erase ks)) as [l|] eqn:El; [|discriminate]. cbn [option_map] in Ho. injection Ho as <-.
  cbn [zero_operand].
  assert (r = None) as ->. { eapply fresh_no_result; [exact Hf|]. eauto 8. }
  apply fresh_unfold in Hf as [_ Hf]. pose proof (visit_atoms _ _ Hf El) as V.
  rewrite visit_none, eval_node_unfold. destruct (existsb zero_atom l).
  - destruct V as (ks' & z & -> & Hz). eexists _, _. split; [reflexivity|]. cbn. now right.
  - destruct V as [-> Hs]. cbn [eval_self]. unfold eval_set. rewrite Hs. cbn.
    eexists _, _, _. split; [reflexivity|]. split; [reflexivity|]. split; [constructor|reflexivity].
Qed.

(** ** Policies *)

Lemma abs_cmp_inv v o : abs_cmp v = Some o -> v = TStr (cmp_str o).
Proof.
  destruct v; try discriminate. unfold abs_cmp. intros H. apply find_some in H as [_ H].
  apply str_eqb_eq in H. now subst.
Qed.
Lemma abs_tri_inv v o : abs_tri v = Some o -> v = TStr (tri_str o).
Proof.
  destruct v; try discriminate. unfold abs_tri. intros H. apply find_some in H as [_ H].
  apply str_eqb_eq in H. now subst.
Qed.
Lemma tokval_str v s : tokval_eqb v (TStr s) = true -> v = TStr s.
Proof. destruct v; try discriminate. cbn. intros H. apply str_eqb_eq in H. now subst. Qed.

Lemma abs_inv c t ks p : abs (PT c t ks) = Some p ->
  (c = CBoolVal /\ ks = [] /\ exists x, t_val t = TStr (tri_str x) /\ p = PConst x) \/
  (exists k s, abs_cat c = Some k /\ t_val t = TStr s /\ ks = [] /\ p = PAtt k s) \/
  (c = CNot /\ exists k q, ks = [k] /\ abs k = Some q /\ p = PNot q) \/
  (c = COp /\ exists l r o a b, ks = [l; r] /\ t_val t = TStr (cmp_str o) /\
     abs_operand l = Some a /\ abs_operand r = Some b /\ p = PCmp o a b) \/
  (c = CBoolOp /\ exists l r a b, ks = [l; r] /\ abs l = Some a /\ abs r = Some b /\
     (t_val t = TStr (lit "AND") /\ p = PAnd a b \/ t_val t = TStr (lit "OR") /\ p = POr a b)).
Proof.
  intros H.
  assert (Att : abs_cat c <> None -> abs (PT c t ks) = Some p -> exists k s, abs_cat c = Some k /\ t_val t = TStr s /\ ks = [] /\ p = PAtt k s).
  { intros Hc H'. destruct c; cbn in Hc; try congruence; (destruct ks; [|discriminate H']);
    cbn in H'; destruct (t_val t) as [|s| |] eqn:Ev; try discriminate H';
    injection H' as <-; eexists _, s; repeat split; auto. }
  destruct c; cbn [abs] in H; try (destruct ks; discriminate H);
  try (right; left; apply Att; [discriminate|exact H]; fail).
  - right; right; right; left. split; auto. destruct ks as [|l [|r [|]]]; try discriminate H.
    destruct (abs_cmp (t_val t)) as [o|] eqn:Eo; [|discriminate H].
    destruct (abs_operand l) as [a|] eqn:Ea; [|discriminate H].
    destruct (abs_operand r) as [b|] eqn:Eb; [|discriminate H].
    injection H as <-. apply abs_cmp_inv in Eo. exists l, r, o, a, b. auto.
  - right; right; right; right. split; auto. destruct ks as [|l [|r [|]]]; try discriminate H.
    destruct (abs l) as [a|] eqn:Ea; [|discriminate H].
    destruct (abs r) as [b|] eqn:Eb; [|discriminate H].
    exists l, r, a, b. repeat split; auto.
    destruct (tokval_eqb (t_val t) (TStr (lit "AND"))) eqn:Et.
    + left. apply tokval_str in Et. injection H as <-. auto.
    + destruct (tokval_eqb (t_val t) (TStr (lit "OR"))) eqn:Et2; [|discriminate H].
      right. apply tokval_str in Et2. injection H as <-. auto.
  - left. destruct ks; [|discriminate H]. destruct (abs_tri (t_val t)) as [x|] eqn:Ex; [|discriminate H].
    apply abs_tri_inv in Ex. cbn in H. injection H as <-. eauto 6.
  - right; right; left. split; auto. destruct ks as [|k [|]]; try discriminate H.
    destruct (abs k) as [q|] eqn:Eq; [|discriminate H]. cbn in H. injection H as <-. eauto 6.
Qed.

Lemma att_kind_att a : match att_kind a with KAtom _ | KLit _ => False | _ => True end.
Proof. destruct a as [[[] []]|]; cbn; auto; now destruct t. Qed.

(** What visiting a (sub-)policy gives. *)
Definition pol_outcome (t : ptree) (p : pol) (v : ast * list warning * option exc) : Prop :=
  let '(nd', ws, e) := v in
  match e with
  | Some x => faults E p = true /\ ierr t x
  | None => map w_kind ws = warns E p /\
      if faults E p then (exists c n, p = PAtt c n) /\ exists l, n_result nd' = Some (RSym l)
      else n_result nd' = Some (RV (VTri (den E p)))
  end.

Lemma ierr_kid c t k ks e : In k ks -> ierr k e -> ierr (PT c t ks) e.
Proof.
  intros Hk [->|(z & Hz & ->)]; [now left|]. right. exists z. split; auto.
  cbn. right. apply in_flat_map. eauto.
Qed.
Lemma ierr_here c t ks : ierr (PT c t ks) (EInterp (t_pos t)).
Proof. right. eexists. split; [|reflexivity]. now left. Qed.

Lemma visit_pol nd : forall p, fresh U nd -> abs (erase nd) = Some p ->
  pol_outcome (erase nd) p (visit nd) /\
  match p with PConst _ => exists e, snd (eval_node U h tb nd) = Some e /\ ierr (erase nd) e
             | _ => visit nd = eval_node U h tb nd end.
Proof.
  induction nd as [c t i r ks IH] using ast_ind'. intros p Hf Ha.
  cbn [erase] in Ha. apply abs_inv in Ha.
  destruct Ha as [(-> & Hks & x & Ht & ->)|[(k & s & Hc & Ht & Hks & ->)|[(-> & k & q & Hks & Hq & ->)|
    [(-> & lt & rt & o & a & b & Hks & Ht & Ha & Hb & ->)|(-> & lt & rt & a & b & Hks & Ha & Hb & Hp)]]]].
  - destruct ks; [|discriminate]. apply fresh_unfold in Hf as [Hr _]. cbn [init_result] in Hr. rewrite Ht in Hr.
    assert (r = Some (RV (VTri x))) as -> by (destruct x; injection Hr as <-; reflexivity).
    split.
    + destruct x; cbn; auto; (split; [reflexivity|apply (ierr_here CBoolVal t [])]).
    + cbn. eexists. split; [reflexivity|]. apply (ierr_here CBoolVal t []).
  - destruct ks; [|discriminate].
    assert (r = None) as ->.
    { eapply fresh_no_result; [exact Hf|]. left. destruct c; try discriminate; reflexivity. }
    split; [|reflexivity]. rewrite visit_none, eval_node_unfold. cbn [eval_kids].
    destruct (eval_att_ok c t None k s Hc Ht) as (rv & ws & Ee & Hs & Hw).
    assert (Es : eval_self U h tb c t None [] = eval_att U h tb c t None).
    { destruct c; try discriminate; reflexivity. }
    rewrite Es, Ee. cbn. split; [exact Hw|].
    pose proof (att_kind_att (E k s)) as Hn.
    destruct Hs as [|x Hx| | | | |]; eauto 6; now destruct Hn.
  - destruct ks as [|kd [|]]; try discriminate. injection Hks as <-.
    assert (r = None) as -> by (eapply fresh_no_result; [exact Hf|]; auto).
    split; [|reflexivity]. apply fresh_unfold in Hf as [_ Hf]. inversion Hf as [|? ? Hfk _]; subst.
    inversion IH as [|? ? IHk _]; subst. destruct (IHk q Hfk Hq) as [O _].
    rewrite visit_none, eval_node_unfold, eval_kids_cons. cbn [eval_kids].
    destruct (visit kd) as [[kd' ws] e]. unfold pol_outcome in O. destruct e as [x|].
    + destruct O as [O1 O2]. cbn. split; auto. eapply (ierr_kid CNot t (erase kd)); eauto. now left.
    + destruct O as [O1 O2]. cbn [eval_self eval_not]. cbn [faults den warns].
      destruct (faults E q) eqn:Efq.
      * destruct O2 as (_ & l & O2). rewrite O2. cbn. rewrite Efq. split; auto. apply (ierr_here CNot t [erase kd]).
      * rewrite O2. cbn. rewrite Efq. rewrite app_nil_r, app_nil_r. split; auto. now rewrite knot_ok.
  - destruct ks as [|l [|rk [|]]]; try discriminate. injection Hks as <- <-.
    assert (r = None) as -> by (eapply fresh_no_result; [exact Hf|]; auto).
    split; [|reflexivity]. apply fresh_unfold in Hf as [_ Hf].
    inversion Hf as [|? ? Hfl Hf2]; subst. inversion Hf2 as [|? ? Hfr _]; subst.
    rewrite visit_none, eval_node_unfold, eval_kids_cons.
    pose proof (visit_operand l a Hfl Ha) as Vl. pose proof (visit_operand rk b Hfr Hb) as Vr.
    cbn [faults warns den]. unfold pol_outcome. cbn [faults warns den]. unfold cmp_faults.
    destruct (zero_operand a); cbn [orb].
    { destruct Vl as (l' & z & -> & Hz). split; auto. eapply (ierr_kid COp t (erase l)); [now left|].
      right. eauto. }
    destruct Vl as (l' & lv & wl & -> & Hlr & Hls & Hlw). rewrite eval_kids_cons.
    destruct (zero_operand b); cbn [orb].
    { destruct Vr as (r' & z & -> & Hz). cbn. split; auto. eapply (ierr_kid COp t (erase rk)); [right; now left|].
      right. eauto. }
    destruct Vr as (r' & rv & wr & -> & Hrr & Hrs & Hrw). cbn [eval_kids eval_self].
    unfold eval_op. rewrite Hlr, Hrr, Ht, cmp_str_upper.
    assert (Hex : existsb (str_eqb (cmp_str o)) [lit "="; lit "!="; lit "<"; lit ">"; lit "<="; lit ">="; lit "IN"; lit "SUBSET"] = true)
      by (destruct o; reflexivity).
    cbv zeta. rewrite Hex.
    assert (Ul : is_undef lv = undefined (operand_kind E a)).
    { destruct Hls as [|[]|[]| | | |]; auto; congruence. }
    assert (Ur : is_undef rv = undefined (operand_kind E b)).
    { destruct Hrs as [|[]|[]| | | |]; auto; congruence. }
    rewrite Ul, Ur. unfold cmp_den.
    destruct (undefined (operand_kind E a) || undefined (operand_kind E b)) eqn:Eu; cbn [negb andb].
    { rewrite !map_app, Hlw, Hrw. cbn. now rewrite !app_nil_r. }
    apply orb_false_iff in Eu as [Eu1 Eu2].
    rewrite (run_op_ok o lv rv _ _ (t_pos t) Hls Hrs Eu1 Eu2). unfold expect.
    destruct (hash_fault o (operand_kind E a) (operand_kind E b)).
    { cbn. split; auto. now left. }
    destruct (cmp_bool o (operand_kind E a) (operand_kind E b)) as [x|]; cbn.
    { rewrite !map_app, Hlw, Hrw. cbn. rewrite !app_nil_r. split; auto. }
    rewrite !map_app, Hlw, Hrw. cbn. now rewrite app_nil_r, <- app_assoc.
  - destruct ks as [|l [|rk [|]]]; try discriminate. injection Hks as <- <-.
    assert (r = None) as -> by (eapply fresh_no_result; [exact Hf|]; auto).
    apply fresh_unfold in Hf as [_ Hf].
    inversion Hf as [|? ? Hfl Hf2]; subst. inversion Hf2 as [|? ? Hfr _]; subst.
    inversion IH as [|? ? IHl IH2]; subst. inversion IH2 as [|? ? IHr _]; subst.
    destruct (IHl a Hfl Ha) as [Ol _]. destruct (IHr b Hfr Hb) as [Or _]. clear IHl IHr IH IH2.
    split; [|destruct Hp as [[_ ->]|[_ ->]]; reflexivity].
    rewrite visit_none, eval_node_unfold, eval_kids_cons.
    assert (Hfp : faults E p = faults E a || faults E b) by (destruct Hp as [[_ ->]|[_ ->]]; reflexivity).
    assert (Hwp : warns E p = warns E a ++ warns E b) by (destruct Hp as [[_ ->]|[_ ->]]; reflexivity).
    unfold pol_outcome in *. rewrite Hfp, Hwp.
    destruct (visit l) as [[l' wl] [x|]].
    { destruct Ol as [-> Ol]. cbn. split; auto. eapply (ierr_kid CBoolOp t (erase l)); eauto. now left. }
    rewrite eval_kids_cons. destruct (visit rk) as [[r' wr] [x|]].
    { destruct Or as [-> Or]. cbn. rewrite orb_true_r. split; auto.
      eapply (ierr_kid CBoolOp t (erase rk)); eauto. right; now left. }
    destruct Ol as [Hlw Ol], Or as [Hrw Or]. cbn [eval_kids eval_self]. unfold eval_bool_op.
    destruct (faults E a); cbn [orb].
    { destruct Ol as (_ & la & ->). destruct (n_result r'); cbn; (split; [auto|]);
      apply (ierr_here CBoolOp t [erase l; erase rk]). }
    rewrite Ol. destruct (faults E b).
    { destruct Or as (_ & lb & ->). cbn. split; auto. apply (ierr_here CBoolOp t [erase l; erase rk]). }
    rewrite Or. rewrite app_nil_r.
    destruct Hp as [[Ht ->]|[Ht ->]]; rewrite Ht; cbn;
    rewrite app_nil_r, !map_app, Hlw, Hrw; (split; [auto|]); now rewrite ?kand_ok, ?kor_ok.
Qed.

End WithTable.
