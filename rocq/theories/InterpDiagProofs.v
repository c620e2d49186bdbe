(** * InterpDiagProofs: proofs about the messages of the interpreter *)

From Coq Require Import NArith ZArith List Bool String Lia.
From Verif Require Import TypeCheck TypeSpec PyBase PyNum Lexer LexSpec LexProofs Values Ast Parser Grammar ParseProofs ParseProofs2 Syntax Symbols Interp EvalSpec EvalProofs InterpDiag InterpDiagSpec.
Import ListNotations.
Open Scope Z_scope.

(** ** Forgetting the messages *)

Definition fw (n : note) : warning := Warn (no_kind n) (no_pos n).
Definition ff (f : fault) : exc := match f with FInterp _ _ p => EInterp p | FOther e => e end.
Definition fo (o : dout) : out := (map fw (fst o), match snd o with inl t => Ok t | inr f => Err (ff f) end).
Definition fs {A} (s : A * list note * option fault) : A * list warning * option exc :=
  let '(a, ns, f) := s in (a, map fw ns, option_map ff f).

Lemma fo_lift {A} (r : res A) k k' : (forall a, fo (k a) = k' a) -> fo (d_lift r k) = lift_res r k'.
Proof. intros H. destruct r as [a|e]; [apply H|reflexivity]. Qed.
Lemma fo_bool r : fo (d_bool r) = of_bool r.
Proof. now destruct r. Qed.

Section WithTable.
Variable U : unicode.
Variable h : heap.
Variable tb : table.

Lemma fo_eq lr rr : fo (d_eq_op h lr rr) = eq_op h lr rr.
Proof.
  apply fo_lift. intros l. apply fo_lift. intros r. destruct (_ || _); [reflexivity|].
  destruct l; try reflexivity; destruct r; try reflexivity. apply fo_lift. intros a. apply fo_lift. reflexivity.
Qed.
Lemma fo_neq lr rr : fo (d_neq_op h lr rr) = neq_op h lr rr.
Proof.
  unfold d_neq_op, neq_op. rewrite <- fo_eq. destruct (d_eq_op h lr rr) as [ns [t|f]]; reflexivity.
Qed.
Lemma fo_ineq f m r lr rr : fo (d_ineq_op h f m r lr rr) = ineq_op h f lr rr.
Proof. unfold d_ineq_op, ineq_op. destruct (as_num _); [|reflexivity]. destruct (as_num _); reflexivity. Qed.
Lemma fo_in lr rr : fo (d_in_op h lr rr) = in_op h lr rr.
Proof.
  apply fo_lift. intros l. apply fo_lift. intros r. destruct (coll_elems r); [|reflexivity].
  destruct (_ || _); [apply fo_bool|]. destruct (isinst_null l); [apply fo_bool|]. destruct (coll_elems l); [apply fo_bool|reflexivity].
Qed.
Lemma fo_subset lr rr : fo (d_subset_op h lr rr) = subset_op h lr rr.
Proof. apply fo_lift. intros l. apply fo_lift. intros r. destruct l; try reflexivity. destruct r; reflexivity. Qed.

Lemma fo_run s u lr rr p : fo (d_run_op h s u lr rr p) = run_op h s u lr rr p.
Proof.
  unfold d_run_op, run_op.
  destruct (str_eqb s (lit "=")); [apply fo_eq|]. destruct (str_eqb s (lit "!=")); [apply fo_neq|].
  destruct (str_eqb s (lit ">")); [apply fo_ineq|]. destruct (str_eqb s (lit "<")); [apply fo_ineq|].
  destruct (str_eqb s (lit ">=")); [apply fo_ineq|]. destruct (str_eqb s (lit "<=")); [apply fo_ineq|].
  destruct (str_eqb u (lit "IN")); [apply fo_in|]. destruct (str_eqb u (lit "SUBSET")); [apply fo_subset|]. reflexivity.
Qed.

Lemma fs_att c t old : fs (d_eval_att U h tb c t old) = eval_att U h tb c t old.
Proof.
  unfold d_eval_att, eval_att. destruct (att_to_symbol_name c t) as [n|e]; [|reflexivity].
  destruct (st_lookup U tb n) as [l|]; [|reflexivity]. cbv zeta.
  destruct (negb _); [|destruct (symtype_eqb _ _)]; destruct (sy_value (hget h l)); reflexivity.
Qed.
Lemma fs_self c t old ks : fs (d_eval_self U h tb c t old ks) = eval_self U h tb c t old ks.
Proof.
  destruct c; cbn [d_eval_self eval_self]; try apply fs_att; try reflexivity.
  - unfold d_eval_op, eval_op. destruct ks as [|l [|r ks]]; try reflexivity.
    destruct (n_result l); [|reflexivity]. destruct (n_result r); [|reflexivity]. destruct (t_val t); try reflexivity.
    cbv zeta. destruct (existsb _ _); [|reflexivity]. destruct (_ || _); [reflexivity|].
    rewrite <- fo_run. destruct (d_run_op h _ _ _ _ _) as [ns [x|f]]; reflexivity.
  - unfold d_eval_bool_op, eval_bool_op. destruct ks as [|l [|r ks]]; try reflexivity.
    destruct (n_result l) as [[v|]|]; try reflexivity; destruct v; try reflexivity.
    destruct (n_result r) as [[v|]|]; try reflexivity; destruct v; try reflexivity.
    destruct (t_val t); try reflexivity. cbv zeta. destruct (str_eqb _ _); [reflexivity|]. destruct (str_eqb _ _); reflexivity.
  - unfold d_eval_set, eval_set. destruct (set_members ks) as [l []]; reflexivity.
  - unfold d_eval_not, eval_not. destruct ks as [|k ks]; [reflexivity|].
    destruct (n_result k) as [[v|]|]; try reflexivity; destruct v; reflexivity.
Qed.

Definition d_visit (k : ast) : ast * list note * option fault :=
  if rtruthy (n_result k) then (k, [], None) else d_eval_node U h tb k.
Fixpoint d_kids (l : list ast) : list ast * list note * option fault :=
  match l with
  | [] => ([], [], None)
  | k :: rest =>
      if rtruthy (n_result k) then
        let '(rest', ns, f) := d_kids rest in (k :: rest', ns, f)
      else
        let '(k', ns1, f1) := d_eval_node U h tb k in
        match f1 with
        | Some x => (k' :: rest, ns1, Some x)
        | None => let '(rest', ns2, f2) := d_kids rest in (k' :: rest', ns1 ++ ns2, f2)
        end
  end.
Lemma d_kids_cons k rest :
  d_kids (k :: rest) =
  let '(k', ns1, f1) := d_visit k in
  match f1 with
  | Some x => (k' :: rest, ns1, Some x)
  | None => let '(rest', ns2, f2) := d_kids rest in (k' :: rest', ns1 ++ ns2, f2)
  end.
Proof. cbn [d_kids]. unfold d_visit. destruct (rtruthy (n_result k)); auto. Qed.
Lemma d_eval_unfold c t i r kids :
  d_eval_node U h tb (Node c t i r kids) =
  let '(ks, ns, f) := d_kids kids in
  match f with
  | Some x => (Node c t i r ks, ns, Some x)
  | None => let '(r', ns2, x) := d_eval_self U h tb c t r ks in (Node c t i r' ks, ns ++ ns2, x)
  end.
Proof. reflexivity. Qed.

Lemma fs_node n : fs (d_eval_node U h tb n) = eval_node U h tb n.
Proof.
  induction n as [c t i r ks IH] using ast_ind'. rewrite d_eval_unfold, eval_node_unfold.
  assert (K : fs (d_kids ks) = eval_kids U h tb ks).
  { induction IH as [|k ks Hk F IHl]; [reflexivity|]. rewrite eval_kids_cons, d_kids_cons.
    assert (V : fs (d_visit k) = visit U h tb k) by (unfold d_visit, visit; destruct (rtruthy _); [reflexivity|exact Hk]).
    rewrite <- V. destruct (d_visit k) as [[k' ns] [f|]]; [reflexivity|]. cbn [fs option_map].
    rewrite <- IHl. destruct (d_kids ks) as [[ks' ns'] f']. cbn. now rewrite map_app. }
  rewrite <- K. destruct (d_kids ks) as [[ks' ns] [f|]]; [reflexivity|]. cbn [fs option_map].
  rewrite <- fs_self. destruct (d_eval_self U h tb c t r ks') as [[r' ns2] x]. cbn. now rewrite map_app.
Qed.
Lemma fs_visit k : fs (d_visit k) = visit U h tb k.
Proof. unfold d_visit, visit. destruct (rtruthy _); [reflexivity|apply fs_node]. Qed.

(** ** What is told *)

Lemma told_app a b : told (a ++ b) =
  let '(ns, f) := told a in match f with Some x => (ns, Some x) | None => let '(ms, g) := told b in (ns ++ ms, g) end.
Proof.
  induction a as [|[n|f] a IH]; cbn; [now destruct (told b)| |reflexivity].
  rewrite IH. destruct (told a) as [ns [x|]]; [reflexivity|]. now destruct (told b).
Qed.

Hypothesis Hh : heap_ok h.
Notation E := (table_env U h tb).

(** Notes and exception only. *)
Definition spoken {A} (s : A * list note * option fault) : list note * option fault := let '(_, ns, f) := s in (ns, f).

Lemma prefix_word k : cat_prefix k = lit (cat_word k).
Proof. now destruct k. Qed.

Lemma att_told c t old k n : abs_cat c = Some k -> t_val t = TStr n ->
  spoken (d_eval_att U h tb c t old) = told (att_events E t k n).
Proof.
  intros Hc Hv.
  assert (Hn : att_to_symbol_name c t = Ok (cat_prefix k ++ n)).
  { unfold att_to_symbol_name. destruct c; cbn in Hc; try discriminate; injection Hc as <-; cbn [bind];
    rewrite Hv; reflexivity. }
  unfold d_eval_att, att_events. rewrite Hn. unfold att_warns, table_env.
  destruct (st_lookup U tb (cat_prefix k ++ n)) as [l|]; cbn [option_map].
  2:{ cbn [map told spoken att_said]. now rewrite prefix_word, <- app_assoc. }
  rewrite prefix_word. unfold check_val_type, warn_node. cbv zeta.
  destruct (sy_type (hget h l)), (sy_value (hget h l)) as [| | | | |[]| | |];
  cbn [negb symtype_eqb map told spoken att_said att_kind undefined app isinst_num isinst_str isinst_set isinst_list orb];
  rewrite <- ?app_assoc; reflexivity.
Qed.

Lemma d_visit_atom nd a : fresh U nd -> abs_atom (erase nd) = Some a -> spoken (d_visit nd) = told (atom_events (erase nd)).
Proof.
  intros Hf Ha. pose proof (fresh_atom U nd a Hf Ha) as Hr. unfold d_visit. rewrite Hr. cbn [rtruthy].
  rewrite truthy_atom. unfold atom_events. destruct nd as [c t i r ks]. cbn [erase] in *. rewrite Ha.
  destruct (zero_atom a); cbn [negb]; [|reflexivity].
  cbn in Hr. subst r.
  assert (ks = []) as ->. { destruct ks; auto. cbn in Ha. destruct t as [ty tp []], c; discriminate. }
  rewrite d_eval_unfold. cbn [d_kids]. cbn in Ha.
  destruct t as [ty tp tval], c, tval; try discriminate; reflexivity.
Qed.

Lemma d_visit_atoms ks l : Forall (fresh U) ks -> optM abs_atom (map erase ks) = Some l ->
  spoken (d_kids ks) = told (flat_map atom_events (map erase ks)).
Proof.
  intros Hf. revert l. induction Hf as [|k ks Hk Hf IH]; intros l Hl; [reflexivity|].
  cbn [map optM] in Hl. destruct (abs_atom (erase k)) as [a|] eqn:Ea; [|discriminate].
  destruct (optM abs_atom (map erase ks)) as [l'|] eqn:El; [|discriminate]. specialize (IH _ eq_refl).
  cbn [map flat_map]. rewrite d_kids_cons, told_app, <- (d_visit_atom k a Hk Ea), <- IH.
  destruct (d_visit k) as [[k' ns] [f|]]; [reflexivity|]. cbn [spoken]. now destruct (d_kids ks) as [[ks' ns'] f'].
Qed.

Lemma d_visit_none c t i ks : d_visit (Node c t i None ks) = d_eval_node U h tb (Node c t i None ks).
Proof. reflexivity. Qed.

Lemma d_visit_operand nd o : fresh U nd -> abs_operand (erase nd) = Some o ->
  spoken (d_visit nd) = told (operand_events E (erase nd)).
Proof.
  intros Hf Ho. destruct nd as [c t i r ks].
  assert (Ev : operand_events E (erase (Node c t i r ks)) =
    match o with OAtt k n => att_events E t k n | OSet _ => flat_map atom_events (map erase ks) | OAtom _ => atom_events (erase (Node c t i r ks)) end).
  { unfold operand_events. cbn [erase] in *. rewrite Ho. now destruct o. }
  rewrite Ev.
  assert (Atom : forall a, abs_atom (erase (Node c t i r ks)) = Some a -> o = OAtom a ->
    spoken (d_visit (Node c t i r ks)) = told match o with OAtt k n => att_events E t k n | OSet _ => flat_map atom_events (map erase ks) | OAtom _ => atom_events (erase (Node c t i r ks)) end).
  { intros a Ha ->. eapply d_visit_atom; eauto. }
  destruct t as [ty tp tval].
  assert (Att : forall k s, abs_cat c = Some k -> tval = TStr s -> ks = [] -> o = OAtt k s ->
    spoken (d_visit (Node c (Tok ty tp tval) i r ks)) = told match o with OAtt k n => att_events E (Tok ty tp tval) k n | OSet _ => flat_map atom_events (map erase ks) | OAtom _ => atom_events (erase (Node c (Tok ty tp tval) i r ks)) end).
  { intros k s Hc -> -> ->.
    assert (r = None) as ->.
    { eapply fresh_no_result; [exact Hf|]. left. destruct c; try discriminate; reflexivity. }
    rewrite d_visit_none, d_eval_unfold. cbn [d_kids].
    rewrite <- (att_told c (Tok ty tp (TStr s)) None k s Hc eq_refl).
    assert (Es : d_eval_self U h tb c (Tok ty tp (TStr s)) None [] = d_eval_att U h tb c (Tok ty tp (TStr s)) None).
    { destruct c; try discriminate; reflexivity. }
    rewrite Es. now destruct (d_eval_att U h tb c _ None) as [[r' ns] f]. }
  destruct c; cbn [erase abs_operand] in Ho;
  try (cbn [abs_cat] in Ho; destruct (abs_atom _) as [a|] eqn:Ea; cbn [option_map] in Ho; [|discriminate];
       injection Ho as <-; eapply Atom; reflexivity; fail);
  try (cbn [abs_cat] in Ho; destruct tval; try discriminate; destruct ks; try discriminate;
       injection Ho as <-; eapply Att; reflexivity; fail).
  (* set *)
  destruct (optM abs_atom (map erase ks)) as [l|] eqn:El; [|discriminate]. cbn [option_map] in Ho. injection Ho as <-.
  assert (r = None) as ->. { eapply fresh_no_result; [exact Hf|]. eauto 8. }
  apply fresh_unfold in Hf as [_ Hf]. pose proof (d_visit_atoms _ _ Hf El) as V. pose proof (visit_atoms U h tb _ _ Hf El) as W.
  rewrite <- V, d_visit_none, d_eval_unfold.
  assert (K : fs (d_kids ks) = eval_kids U h tb ks).
  { clear. induction ks as [|k ks IH]; [reflexivity|]. rewrite eval_kids_cons, d_kids_cons. rewrite <- fs_visit.
    destruct (d_visit k) as [[k' ns] [f|]]; [reflexivity|]. cbn [fs option_map]. rewrite <- IH.
    destruct (d_kids ks) as [[ks' ns'] f']. cbn. now rewrite map_app. }
  destruct (d_kids ks) as [[ks' ns] [f|]]; [reflexivity|]. cbn [fs option_map] in K.
  destruct (existsb zero_atom l).
  - destruct W as (k2 & z & W & _). rewrite W in K. discriminate.
  - destruct W as [W Hs]. rewrite W in K. injection K as -> _. cbn [d_eval_self]. unfold d_eval_set. rewrite Hs. cbn. now rewrite app_nil_r.
Qed.

(** ** Operators *)

Definition d_expect (o : cmp) (a b : okind) (u v : pyval) : dout :=
  if hash_fault o a b then d_raise (FOther EType)
  else match cmp_bool o a b with Some x => d_ret (tri_of_bool x) | None => d_undef (fst (cmp_said o)) (snd (cmp_said o)) (fst (carried o a b u v)) (snd (carried o a b u v)) end.

(** A warning of an operator has its message. *)
Definition speaks (o : cmp) (d : dout) : Prop :=
  (forall n, In n (fst d) -> no_msg n = fst (cmp_said o) /\ no_rule n = snd (cmp_said o) /\ no_pos n = -1 /\ no_kind n = WOperator) /\
  (forall f, snd d = inr f -> exists e, f = FOther e).
Lemma speaks_lift {A} o (r : res A) k : (forall a, speaks o (k a)) -> speaks o (d_lift r k).
Proof. intros H. destruct r; [apply H|]. split; [intros ? []|]. cbn. intros f [= <-]. eauto. Qed.
Lemma speaks_ret o t : speaks o (d_ret t).
Proof. split; [intros ? []|discriminate]. Qed.
Lemma speaks_undef o l r : speaks o (d_undef (fst (cmp_said o)) (snd (cmp_said o)) l r).
Proof. split; [|discriminate]. intros n [<-|[]]. auto. Qed.
Lemma speaks_bool o r : speaks o (d_bool r).
Proof. apply speaks_lift. intros a. apply speaks_ret. Qed.

Lemma speaks_run o lr rr p : speaks o (d_run_op h (cmp_str o) (cmp_str o) lr rr p).
Proof.
  assert (Eq : speaks OpEq (d_eq_op h lr rr)).
  { apply speaks_lift. intros l. apply speaks_lift. intros r. destruct (_ || _); [apply speaks_ret|].
    destruct l; try exact (speaks_undef OpEq _ _); destruct r; try exact (speaks_undef OpEq _ _).
    apply speaks_lift. intros a. apply speaks_lift. intros b. apply speaks_ret. }
  assert (Iq : forall f o, speaks o (d_ineq_op h f (fst (cmp_said o)) (snd (cmp_said o)) lr rr)).
  { intros f o'. unfold d_ineq_op. destruct (as_num _); [|apply speaks_undef]. destruct (as_num _); [apply speaks_ret|apply speaks_undef]. }
  destruct o.
  - exact (Iq num_gtb OpGt).
  - exact (Iq num_ltb OpLt).
  - exact Eq.
  - exact (Iq num_geb OpGe).
  - exact (Iq num_leb OpLe).
  - change (speaks OpNe (d_neq_op h lr rr)). unfold d_neq_op. destruct (d_eq_op h lr rr) as [ns [t|f]]; destruct Eq as [E1 E2]; split; auto; discriminate.
  - change (speaks OpIn (d_in_op h lr rr)). apply speaks_lift. intros l. apply speaks_lift. intros r. destruct (coll_elems r); [|exact (speaks_undef OpIn _ _)].
    destruct (_ || _); [apply speaks_bool|]. destruct (isinst_null l); [apply speaks_bool|]. destruct (coll_elems l); [apply speaks_bool|exact (speaks_undef OpIn _ _)].
  - change (speaks OpSubset (d_subset_op h lr rr)). apply speaks_lift. intros l. apply speaks_lift. intros r.
    destruct l; try exact (speaks_undef OpSubset _ _); destruct r; try exact (speaks_undef OpSubset _ _). apply speaks_ret.
Qed.

(** A warning of an operator carries its operands. *)
Lemma to_val_seen lr rr a b l : shows h lr a -> shows h rr b -> to_val h lr rr 0 = Ok l -> l = seen a b (plain h lr).
Proof.
  intros Ha Hb. unfold to_val, plain. destruct Ha as [|t T|x|x|x Hx|x m Hx|x m Hx]; try (intros [= <-]; reflexivity); unfold symbol_to_val.
  - assert (S : is_coll rr || is_sym rr = match b with KLit _ | KColl _ | KScal _ => true | _ => false end).
    { destruct Hb as [|[]|[]| | | |]; reflexivity. }
    destruct (sy_value (hget h x)) as [| | | | | | | |] eqn:Ex; destruct Hx as [Hx|Hx]; try discriminate Hx;
    rewrite S; destruct b; intros [= <-]; reflexivity.
  - rewrite Hx. intros [= <-]. reflexivity.
  - rewrite Hx. unfold py_set. destruct (forallb hashable m); [|discriminate]. intros [= <-]. reflexivity.
Qed.
Lemma to_val_one lr rr a b l : shows h lr a -> shows h rr b -> to_val h lr rr 1 = Ok l ->
  l = match a with KScal _ => plain h lr | _ => seen a b (plain h lr) end.
Proof.
  intros Ha Hb. unfold to_val, plain. destruct Ha as [|t T|x|x|x Hx|x m Hx|x m Hx]; try (intros [= <-]; reflexivity); unfold symbol_to_val.
  - destruct (sy_value (hget h x)) as [| | | | | | | |] eqn:Ex; destruct Hx as [Hx|Hx]; try discriminate Hx;
    destruct (_ || _); intros [= <-]; reflexivity.
  - rewrite Hx. intros [= <-]. reflexivity.
  - rewrite Hx. unfold py_set. destruct (forallb hashable m); [|discriminate]. intros [= <-]. reflexivity.
Qed.
Lemma subset_val_seen lr rr a b l : shows h lr a -> shows h rr b -> subset_val h lr rr = Ok l -> l = members (seen a b (plain h lr)).
Proof.
  intros Ha Hb. pose proof (fun l => to_val_seen lr rr a b l Ha Hb) as X. unfold subset_val.
  destruct Ha as [|t T|x|x|x Hx|x m Hx|x m Hx]; try (intros H; apply X in H; subst l).
  - reflexivity.
  - reflexivity.
  - destruct x; intros [= <-]; reflexivity.
  - unfold py_set. destruct (forallb _ _); [|discriminate]. intros [= <-]. reflexivity.
  - cbn [seen plain]. destruct (sy_value (hget h x)); destruct Hx as [Hx|Hx]; try discriminate Hx; destruct b; reflexivity.
  - reflexivity.
  - reflexivity.
Qed.

Definition holds (c : pyval * pyval) (d : dout) : Prop := forall n, In n (fst d) -> (no_left n, no_right n) = c.
Lemma holds_none c x : holds c ([], x).
Proof. intros n []. Qed.
Lemma holds_bool c r : holds c (d_bool r).
Proof. destruct r; apply holds_none. Qed.
Lemma holds_undef m r x y : holds (x, y) (d_undef m r x y).
Proof. intros n [<-|[]]. reflexivity. Qed.

Lemma holds_run o lr rr a b p : shows h lr a -> shows h rr b ->
  holds (carried o a b (plain h lr) (plain h rr)) (d_run_op h (cmp_str o) (cmp_str o) lr rr p).
Proof.
  intros Ha Hb.
  assert (Iq : forall f m r, holds (plain h lr, plain h rr) (d_ineq_op h f m r lr rr)).
  { intros f m r. unfold d_ineq_op. destruct (as_num _); [|apply holds_undef]. destruct (as_num _); [apply holds_none|apply holds_undef]. }
  assert (Eq : holds (carried OpEq a b (plain h lr) (plain h rr)) (d_eq_op h lr rr)).
  { unfold d_eq_op. cbn [carried].
    destruct (to_val h lr rr 0) as [l|] eqn:El; [|apply holds_none]. destruct (to_val h rr lr 0) as [r|] eqn:Er; [|apply holds_none].
    apply (to_val_seen lr rr a b) in El; auto. apply (to_val_seen rr lr b a) in Er; auto. rewrite <- El, <- Er. cbn [d_lift].
    destruct (_ || _); [apply holds_none|]. destruct l; try apply holds_undef; destruct r; try apply holds_undef.
    destruct (py_set _); [|apply holds_none]. destruct (py_set _); apply holds_none. }
  destruct o; try apply Iq.
  - exact Eq.
  - change (holds (carried OpEq a b (plain h lr) (plain h rr)) (d_neq_op h lr rr)). unfold d_neq_op. destruct (d_eq_op h lr rr) as [ns x]. exact Eq.
  - change (holds (carried OpIn a b (plain h lr) (plain h rr)) (d_in_op h lr rr)). unfold d_in_op. cbn [carried].
    destruct (to_val h lr rr 1) as [l|] eqn:El; [|apply holds_none]. destruct (to_val h rr lr 0) as [r|] eqn:Er; [|apply holds_none].
    apply (to_val_one lr rr a b) in El; auto. apply (to_val_seen rr lr b a) in Er; auto. rewrite <- El, <- Er. cbn [d_lift]. cbv zeta.
    destruct (coll_elems r); [|apply holds_undef]. destruct (_ || _); [apply holds_bool|]. destruct (isinst_null l); [apply holds_bool|].
    destruct (coll_elems l); [apply holds_bool|apply holds_undef].
  - change (holds (carried OpSubset a b (plain h lr) (plain h rr)) (d_subset_op h lr rr)). unfold d_subset_op. cbn [carried].
    destruct (subset_val h lr rr) as [l|] eqn:El; [|apply holds_none]. destruct (subset_val h rr lr) as [r|] eqn:Er; [|apply holds_none].
    apply (subset_val_seen lr rr a b) in El; auto. apply (subset_val_seen rr lr b a) in Er; auto. rewrite <- El, <- Er. cbn [d_lift].
    destruct l; try apply holds_undef; destruct r; try apply holds_undef. apply holds_none.
Qed.

Lemma d_run_ok o lr rr a b p :
  shows h lr a -> shows h rr b -> undefined a = false -> undefined b = false ->
  d_run_op h (cmp_str o) (cmp_str o) lr rr p = d_expect o a b (plain h lr) (plain h rr).
Proof.
  intros Ha Hb Ua Ub. pose proof (run_op_ok h Hh o lr rr a b p Ha Hb Ua Ub) as R. rewrite <- fo_run in R.
  pose proof (speaks_run o lr rr p) as [S1 S2]. pose proof (holds_run o lr rr a b p Ha Hb) as S3. unfold holds in S3.
  destruct (d_run_op h (cmp_str o) (cmp_str o) lr rr p) as [ns x]. unfold fo in R. cbn [fst snd] in *. unfold expect in R. unfold d_expect.
  destruct (hash_fault o a b).
  - unfold raise_ in R. injection R as R1 R2. apply map_eq_nil in R1 as ->. destruct x as [t|f]; [discriminate|].
    destruct (S2 f eq_refl) as [e ->]. cbn in R2. injection R2 as ->. reflexivity.
  - destruct (cmp_bool o a b) as [y|].
    + unfold ret in R. injection R as R1 R2. apply map_eq_nil in R1 as ->. destruct x as [t|f]; [|discriminate]. now injection R2 as ->.
    + unfold warn_undef in R. injection R as R1 R2. destruct ns as [|n [|]]; try discriminate R1. destruct x as [t|f]; [|discriminate]. injection R2 as ->.
      destruct (S1 n (or_introl eq_refl)) as (M1 & M2 & M3 & M4). specialize (S3 n (or_introl eq_refl)).
      destruct n as [k m r q x y]. cbn [no_kind no_msg no_rule no_pos no_left no_right] in *. rewrite <- S3. subst. reflexivity.
Qed.

(** The operands are those of the policy. *)
Lemma plain_operand nd o nd' ws rv : fresh U nd -> abs_operand (erase nd) = Some o -> visit U h tb nd = (nd', ws, None) ->
  n_result nd' = Some rv -> shows h rv (operand_kind E o) -> undefined (operand_kind E o) = false -> plain h rv = raw E o.
Proof.
  intros Hf Ho Hv Hr Hs Hu. destruct o as [x|x|k n]; cbn [operand_kind raw] in *.
  - inversion Hs; reflexivity.
  - inversion Hs; reflexivity.
  - destruct nd as [c t i r ks].
    assert (X : abs_cat c = Some k /\ t_val t = TStr n /\ ks = []).
    { destruct t as [ty tp tval]. destruct c; cbn [erase abs_operand] in Ho;
      try (cbn [abs_cat] in Ho; destruct (abs_atom _) as [a|]; discriminate Ho);
      try (cbn [abs_cat] in Ho; destruct tval; try discriminate; destruct ks; try discriminate; injection Ho as <- <-; auto; fail).
      destruct (optM abs_atom (map erase ks)); discriminate Ho. }
    destruct X as (Hc & Ht & ->).
    assert (r = None) as ->.
    { eapply fresh_no_result; [exact Hf|]. left. destruct c; try discriminate; reflexivity. }
    rewrite visit_none, eval_node_unfold in Hv. cbn [eval_kids] in Hv.
    assert (Es : eval_self U h tb c t None [] = eval_att U h tb c t None) by (destruct c; try discriminate; reflexivity).
    rewrite Es in Hv.
    assert (Hn : att_to_symbol_name c t = Ok (cat_prefix k ++ n)).
    { unfold att_to_symbol_name. destruct c; cbn in Hc; try discriminate; injection Hc as <-; cbn [bind]; rewrite Ht; reflexivity. }
    unfold eval_att in Hv. rewrite Hn in Hv. unfold table_env in *.
    destruct (st_lookup U tb (cat_prefix k ++ n)) as [l|]; cbn [option_map] in *; [|discriminate Hu].
    destruct (negb _) eqn:En.
    + exfalso. unfold check_val_type in En.
      destruct (sy_type (hget h l)), (sy_value (hget h l)) as [| | | | |[]| | |]; discriminate.
    + destruct (symtype_eqb _ _); cbn [app] in Hv; injection Hv as <- _; cbn [n_result] in Hr; injection Hr as <-; reflexivity.
Qed.

(** ** Policies *)

Lemma no_truth_iff t p : abs t = Some p ->
  no_truth E t = match p with PAtt _ _ => faults E p | _ => false end.
Proof. intros H. unfold no_truth. rewrite H. now destruct p. Qed.

Lemma d_visit_pol nd : forall p, fresh U nd -> abs (erase nd) = Some p -> spoken (d_visit nd) = told (events E (erase nd)).
Proof.
  induction nd as [c t i r ks IH] using ast_ind'. intros p Hf Ha.
  pose proof Ha as Ha0. cbn [erase] in Ha. apply abs_inv in Ha.
  destruct Ha as [(-> & Hks & x & Ht & ->)|[(k & s & Hc & Ht & Hks & ->)|[(-> & k & q & Hks & Hq & ->)|
    [(-> & lt & rt & o & a & b & Hks & Ht & Ha & Hb & ->)|(-> & lt & rt & a & b & Hks & Ha & Hb & Hp)]]]].
  - destruct ks; [|discriminate]. apply fresh_unfold in Hf as [Hr _]. cbn [init_result] in Hr. rewrite Ht in Hr.
    assert (r = Some (RV (VTri x))) as -> by (destruct x; injection Hr as <-; reflexivity).
    cbn [erase map events]. rewrite Ht. destruct x; reflexivity.
  - destruct ks; [|discriminate].
    assert (r = None) as ->.
    { eapply fresh_no_result; [exact Hf|]. left. destruct c; try discriminate; reflexivity. }
    rewrite d_visit_none, d_eval_unfold. cbn [d_kids].
    assert (Es : d_eval_self U h tb c t None [] = d_eval_att U h tb c t None) by (destruct c; try discriminate; reflexivity).
    assert (Ev : events E (erase (Node c t i None [])) = att_events E t k s).
    { cbn [erase map events]. destruct t as [ty tp tv]. cbn in Ht. subst tv. destruct c; try discriminate; cbn in Hc; injection Hc as <-; reflexivity. }
    rewrite Es, Ev, <- (att_told c t None k s Hc Ht). now destruct (d_eval_att U h tb c t None) as [[r' ns] f].
  - destruct ks as [|kd [|]]; try discriminate. injection Hks as <-.
    assert (r = None) as -> by (eapply fresh_no_result; [exact Hf|]; auto).
    apply fresh_unfold in Hf as [_ Hf]. inversion Hf as [|? ? Hfk _]; subst.
    inversion IH as [|? ? IHk _]; subst. specialize (IHk q Hfk Hq).
    destruct (visit_pol U h tb Hh kd q Hfk Hq) as [O _]. rewrite <- fs_visit in O.
    rewrite d_visit_none, d_eval_unfold, !d_kids_cons. cbn [d_kids erase map events]. rewrite told_app, <- IHk, (no_truth_iff _ _ Hq).
    destruct (d_visit kd) as [[kd' ns] [f|]]; [reflexivity|]. cbn [fs option_map] in O. destruct O as [_ O].
    cbn [d_eval_self d_eval_not spoken]. rewrite app_nil_r.
    destruct (faults E q).
    + destruct O as ((c & n & ->) & l & ->). reflexivity.
    + rewrite O. destruct q; reflexivity.
  - destruct ks as [|l [|rk [|]]]; try discriminate. injection Hks as <- <-.
    assert (r = None) as -> by (eapply fresh_no_result; [exact Hf|]; auto).
    apply fresh_unfold in Hf as [_ Hf].
    inversion Hf as [|? ? Hfl Hf2]; subst. inversion Hf2 as [|? ? Hfr _]; subst.
    pose proof (visit_operand U h tb l a Hfl Ha) as Vl. pose proof (visit_operand U h tb rk b Hfr Hb) as Vr.
    pose proof (d_visit_operand l a Hfl Ha) as Dl. pose proof (d_visit_operand rk b Hfr Hb) as Dr.
    rewrite <- fs_visit in Vl, Vr.
    rewrite d_visit_none, d_eval_unfold, !d_kids_cons. cbn [d_kids erase map events]. rewrite !told_app, <- Dl, <- Dr, Ha, Hb.
    assert (Ho : abs_cmp (t_val t) = Some o) by (rewrite Ht; destruct o; reflexivity). rewrite Ho.
    pose proof (fs_visit l) as Pl. pose proof (fs_visit rk) as Pr.
    destruct (d_visit l) as [[l' nl] [f|]]; [reflexivity|]. destruct (d_visit rk) as [[r' nr] [f|]]; [reflexivity|].
    cbn [fs option_map spoken] in *. symmetry in Pl, Pr.
    destruct (zero_operand a). { destruct Vl as (? & ? & Vl & _). discriminate Vl. }
    destruct (zero_operand b). { destruct Vr as (? & ? & Vr & _). discriminate Vr. }
    destruct Vl as (? & lv & ? & [= <- <-] & Hlr & Hls & _). destruct Vr as (? & rv & ? & [= <- <-] & Hrr & Hrs & _).
    pose proof (plain_operand l a l' _ lv Hfl Ha Pl Hlr Hls) as Ql. pose proof (plain_operand rk b r' _ rv Hfr Hb Pr Hrr Hrs) as Qr.
    rewrite app_nil_r. cbn [d_eval_self]. unfold d_eval_op. rewrite Hlr, Hrr, Ht, cmp_str_upper.
    assert (Hex : existsb (str_eqb (cmp_str o)) [lit "="; lit "!="; lit "<"; lit ">"; lit "<="; lit ">="; lit "IN"; lit "SUBSET"] = true)
      by (destruct o; reflexivity).
    cbv zeta. rewrite Hex. unfold cmp_events.
    assert (Ul : is_undef lv = undefined (operand_kind E a)).
    { destruct Hls as [|[]|[]| | | |]; auto; congruence. }
    assert (Ur : is_undef rv = undefined (operand_kind E b)).
    { destruct Hrs as [|[]|[]| | | |]; auto; congruence. }
    rewrite Ul, Ur.
    destruct (undefined (operand_kind E a) || undefined (operand_kind E b)) eqn:Eu.
    { cbn. now rewrite !app_nil_r. }
    apply orb_false_iff in Eu as [Eu1 Eu2].
    rewrite (d_run_ok o lv rv _ _ (t_pos t) Hls Hrs Eu1 Eu2), (Ql Eu1), (Qr Eu2). unfold d_expect.
    destruct (hash_fault o (operand_kind E a) (operand_kind E b)). { cbn. now rewrite !app_nil_r. }
    destruct (cmp_bool o (operand_kind E a) (operand_kind E b)) as [x|]. { cbn. now rewrite !app_nil_r. }
    destruct (cmp_said o) as [m ru], (carried o _ _ _ _) as [x y]. cbn. now rewrite <- app_assoc.
  - destruct ks as [|l [|rk [|]]]; try discriminate. injection Hks as <- <-.
    assert (r = None) as -> by (eapply fresh_no_result; [exact Hf|]; auto).
    apply fresh_unfold in Hf as [_ Hf].
    inversion Hf as [|? ? Hfl Hf2]; subst. inversion Hf2 as [|? ? Hfr _]; subst.
    inversion IH as [|? ? IHl IH2]; subst. inversion IH2 as [|? ? IHr _]; subst.
    specialize (IHl a Hfl Ha). specialize (IHr b Hfr Hb). clear IH IH2.
    destruct (visit_pol U h tb Hh l a Hfl Ha) as [Ol _]. destruct (visit_pol U h tb Hh rk b Hfr Hb) as [Or _].
    rewrite <- fs_visit in Ol, Or.
    rewrite d_visit_none, d_eval_unfold, !d_kids_cons. cbn [d_kids erase map events].
    rewrite !told_app, <- IHl, <- IHr, (no_truth_iff _ _ Ha), (no_truth_iff _ _ Hb).
    destruct (d_visit l) as [[l' nl] [f|]]; [reflexivity|]. destruct (d_visit rk) as [[r' nr] [f|]]; [reflexivity|].
    cbn [fs option_map spoken] in *. destruct Ol as [_ Ol], Or as [_ Or]. rewrite app_nil_r. cbn [d_eval_self]. unfold d_eval_bool_op.
    destruct (faults E a) eqn:Fa.
    { destruct Ol as ((c & n & ->) & la & ->). destruct (n_result r'); cbn; now rewrite !app_nil_r. }
    rewrite Ol. destruct (faults E b) eqn:Fb.
    { destruct Or as ((c & n & ->) & lb & ->). destruct a; cbn; now rewrite ?app_nil_r. }
    rewrite Or.
    destruct Hp as [[-> ->]|[-> ->]]; cbn; (destruct a, b; cbn in *; rewrite ?Fa, ?Fb; cbn; now rewrite ?app_nil_r).
Qed.

Lemma d_root nd p : fresh U nd -> abs (erase nd) = Some p -> spoken (d_eval_node U h tb nd) = told (root_events E (erase nd)).
Proof.
  intros Hf Ha. destruct (visit_pol U h tb Hh nd p Hf Ha) as [_ R].
  destruct nd as [c t i r ks]. pose proof Ha as Ha0. cbn [erase] in Ha. apply abs_inv in Ha.
  pose proof (d_visit_pol (Node c t i r ks) p Hf Ha0) as V.
  destruct Ha as [(-> & Hks & x & Ht & ->)|Ha].
  - destruct ks; [|discriminate]. reflexivity.
  - assert (Er : root_events E (erase (Node c t i r ks)) = events E (erase (Node c t i r ks))).
    { destruct c; try reflexivity. destruct Ha as [(k & s & Hc & _)|[(H & _)|[(H & _)|(H & _)]]]; discriminate. }
    assert (Rn : r = None).
    { eapply fresh_no_result; [exact Hf|]. destruct Ha as [(k & s & Hc & _)|[(-> & _)|[(-> & _)|(-> & _)]]]; auto.
      left. destruct c; try discriminate; reflexivity. }
    rewrite Er, <- V. subst r. reflexivity.
Qed.

End WithTable.

(** ** Where events come from *)

(** An event of a policy over the tokens [ts] and what it is about. *)
Section Grounds.
Variable E : env.
Variable ts : list token.

Inductive ground (cs : list (cmp * operand * operand)) : event -> Prop :=
| gr_att t c n k : In t ts -> t_type t = cat_type c -> t_val t = TStr n -> In k (att_warns E c n) ->
    ground cs (Says (Note k (att_said k c n) (lit "evaluate_att_node") (t_pos t) VNone VNone))
| gr_cmp o l r : In (o, l, r) cs -> undefined (operand_kind E l) = false -> undefined (operand_kind E r) = false ->
    hash_fault o (operand_kind E l) (operand_kind E r) = false -> cmp_bool o (operand_kind E l) (operand_kind E r) = None ->
    ground cs (Says (Note WOperator (fst (cmp_said o)) (snd (cmp_said o)) (-1)
      (fst (carried o (operand_kind E l) (operand_kind E r) (raw E l) (raw E r))) (snd (carried o (operand_kind E l) (operand_kind E r) (raw E l) (raw E r)))))
| gr_hash o l r : In (o, l, r) cs -> undefined (operand_kind E l) = false -> undefined (operand_kind E r) = false ->
    hash_fault o (operand_kind E l) (operand_kind E r) = true -> ground cs (Stops (FOther EType))
| gr_zero t x : In t ts -> (t_type t, t_val t) = atom_word x -> zero_atom x = true -> ground cs (bad_node t)
| gr_const t : In t ts -> t_type t = BOOL -> ground cs (bad_node t)
| gr_not t u c n : In t ts -> t_type t = NOT_OP -> In u ts -> t_type u = cat_type c -> t_val u = TStr n ->
    undefined (att_kind (E c n)) = false -> (forall x, att_kind (E c n) <> KTri x) ->
    ground cs (bad_child "evaluate_not_node" t)
| gr_bool t u c n : In t ts -> t_type t = BOOL_OP -> In u ts -> t_type u = cat_type c -> t_val u = TStr n ->
    undefined (att_kind (E c n)) = false -> (forall x, att_kind (E c n) <> KTri x) ->
    ground cs (bad_child "evaluate_bool_op_node" t).

Lemma ground_incl cs cs' e : (forall x, In x cs -> In x cs') -> ground cs e -> ground cs' e.
Proof.
  intros H [t c n k A1 A2 A3 A4|o l r A1 A2 A3 A4 A5|o l r A1 A2 A3 A4|t x A1 A2 A3|t A1 A2|t u c n A1 A2 A3 A4 A5 A6 A7|t u c n A1 A2 A3 A4 A5 A6 A7];
  [eapply gr_att|eapply gr_cmp|eapply gr_hash|eapply gr_zero|eapply gr_const|eapply gr_not|eapply gr_bool]; eauto.
Qed.

Lemma ground_att cs u a t c n ks cl : g_att u a -> a = PT cl t ks -> (forall x, In x u -> In x ts) -> abs_operand a = Some (OAtt c n) ->
  (forall e, In e (att_events E t c n) -> ground cs e) /\ In t ts /\ t_type t = cat_type c /\ t_val t = TStr n.
Proof.
  intros G Ea Hu Ho.
  assert (X : In t ts /\ t_type t = cat_type c /\ t_val t = TStr n).
  { destruct G as [s Hs|s Hs|s Hs|s Hs|s Hs]; injection Ea as <- <- <-; destruct s as [ty p v]; cbn in Ho;
    destruct v; try discriminate; injection Ho as <- <-; cbn in Hs; subst ty; (split; [apply Hu; now left|split; reflexivity]). }
  split; [|exact X]. destruct X as (X1 & X2 & X3). intros e He. apply in_map_iff in He as (k & <- & Hk). now apply gr_att.
Qed.

Lemma ground_atom cs u a e : g_atomic u a -> (forall x, In x u -> In x ts) -> In e (atom_events a) -> ground cs e.
Proof.
  intros G Hu He. destruct G as [t Ht|t Ht|t Ht|t Ht]; destruct t as [ty p v]; cbn in Ht; subst ty; cbn [atom_events] in He;
  destruct v; cbn [abs_atom] in He; try (destruct He; fail);
  try (match type of He with context [if ?b then _ else _] => destruct b eqn:Z; [|destruct He] end;
       destruct He as [<-|[]]; eapply gr_zero; [apply Hu; now left|..]; try exact Z; reflexivity).
Qed.

Lemma ground_operand cs u a e : g_var u a -> (forall x, In x u -> In x ts) -> In e (operand_events E a) -> ground cs e.
Proof.
  intros G Hu He. destruct G as [u a G|u a G|u a G].
  - assert (In e (atom_events a)) as He'; [|eapply ground_atom; eauto].
    destruct a as [c t ks]. unfold operand_events in He. destruct (abs_operand (PT c t ks)) as [[]|] eqn:Eo; try exact He; try destruct He.
    + inversion G; subst; destruct t as [? ? []]; discriminate.
    + inversion G; subst; destruct t as [? ? []]; discriminate.
  - assert (S : forall v l, g_setval v l -> (forall x, In x v -> In x ts) -> forall e, In e (flat_map atom_events l) -> ground cs e).
    { induction 1 as [v b Hb|v b c w l Hb Hc Hl IH]; intros Hv x Hx; cbn [flat_map] in Hx; apply in_app_iff in Hx as [Hx|Hx].
      - eapply ground_atom; eauto.
      - destruct Hx.
      - eapply ground_atom; eauto. intros y Hy. apply Hv. apply in_app_iff. now left.
      - apply IH; auto. intros y Hy. apply Hv. apply in_app_iff. right. now right. }
    destruct G as [lb rb H1 H2|lb v l rb H1 H2 H3]; unfold operand_events in He; cbn [abs_operand] in He.
    + destruct He.
    + destruct (optM abs_atom l); cbn [option_map] in He; [|destruct He]. apply (S v l H2); auto.
      intros y Hy. apply Hu. right. apply in_app_iff. now left.
  - destruct a as [c t ks]. unfold operand_events in He.
    destruct (abs_operand (PT c t ks)) as [[a|l|k n]|] eqn:Eo; try (inversion G; subst; destruct t as [? ? []]; discriminate); [|destruct He].
    eapply (ground_att cs u _ t k n ks c G eq_refl); eauto.
Qed.

Lemma no_truth_att u a : g_boolvar u a -> (forall x, In x u -> In x ts) -> no_truth E a = true ->
  exists t c n, In t ts /\ t_type t = cat_type c /\ t_val t = TStr n /\ undefined (att_kind (E c n)) = false /\ (forall x, att_kind (E c n) <> KTri x).
Proof.
  intros G Hu Hn. unfold no_truth in Hn. destruct G as [t Ht|u a G].
  - cbn in Hn. destruct (abs_tri (t_val t)); discriminate.
  - destruct a as [cl t ks]. destruct (abs (PT cl t ks)) as [[| c n| | | |]|] eqn:Ea; try discriminate.
    assert (Eo : abs_operand (PT cl t ks) = Some (OAtt c n)).
    { apply abs_inv in Ea as [(-> & _)|[(k & s & Hc & Ht & -> & [= <- <-])|[(-> & ? & ? & _ & _ & H)|[(-> & ? & ? & ? & ? & ? & _ & _ & _ & _ & H)|(-> & ? & ? & ? & ? & _ & _ & _ & [[_ H]|[_ H]])]]]]; try discriminate;
      [inversion G|]. destruct t as [ty p v]. cbn in Ht. subst v. destruct cl; try discriminate; cbn in *; congruence. }
    destruct (ground_att [] u _ t c n ks cl G eq_refl Hu Eo) as (_ & H1 & H2 & H3). exists t, c, n.
    repeat split; auto; destruct (att_kind (E c n)); try discriminate; reflexivity.
Qed.

(** The attribute used as a truth value, in parentheses or not. *)
Lemma no_truth_in :
  (forall u a, g_exp u a -> (forall x, In x u -> In x ts) -> no_truth E a = true ->
    exists t c n, In t ts /\ t_type t = cat_type c /\ t_val t = TStr n /\ undefined (att_kind (E c n)) = false /\ (forall x, att_kind (E c n) <> KTri x)) /\
  (forall u a, g_term u a -> (forall x, In x u -> In x ts) -> no_truth E a = true ->
    exists t c n, In t ts /\ t_type t = cat_type c /\ t_val t = TStr n /\ undefined (att_kind (E c n)) = false /\ (forall x, att_kind (E c n) <> KTri x)) /\
  (forall u a, g_policy u a -> (forall x, In x u -> In x ts) -> no_truth E a = true ->
    exists t c n, In t ts /\ t_type t = cat_type c /\ t_val t = TStr n /\ undefined (att_kind (E c n)) = false /\ (forall x, att_kind (E c n) <> KTri x)).
Proof.
  apply g_mind; auto.
  - intros u l o v r _ _ _ _ H. unfold no_truth in H. cbn [abs] in H.
    destruct (abs_cmp _); [|discriminate]. destruct (abs_operand l); [|discriminate]. destruct (abs_operand r); discriminate.
  - intros u b G Hu H. eapply no_truth_att; eauto.
  - intros t u b _ _ _ H. unfold no_truth in H. cbn [abs] in H. destruct (abs b); discriminate.
  - intros lp u p rp _ _ IH _ Hu H. apply IH; auto. intros x Hx. apply Hu. right. apply in_app_iff. now left.
  - intros t lp u p rp _ _ _ IH _ Hu H. unfold no_truth in H. cbn [abs] in H. destruct (abs p); discriminate.
  - intros u l a v r _ _ _ _ _ _ H. unfold no_truth in H. cbn [abs] in H. destruct (abs l); [|discriminate]. destruct (abs r); [|discriminate].
    destruct (tokval_eqb _ _); [discriminate|]. destruct (tokval_eqb _ _); discriminate.
  - intros u l a v r _ _ _ _ _ _ H. unfold no_truth in H. cbn [abs] in H. destruct (abs l); [|discriminate]. destruct (abs r); [|discriminate].
    destruct (tokval_eqb _ _); [discriminate|]. destruct (tokval_eqb _ _); discriminate.
Qed.

(** The comparisons of a tree. *)
Fixpoint compared (p : ptree) : list (cmp * operand * operand) :=
  match p with
  | PT CNot _ [k] => compared k
  | PT CBoolOp _ [l; r] => compared l ++ compared r
  | PT COp t [l; r] =>
      match abs_cmp (t_val t), abs_operand l, abs_operand r with
      | Some o, Some a, Some b => [(o, a, b)]
      | _, _, _ => []
      end
  | _ => []
  end.

Lemma boolvar_ground cs u b e : g_boolvar u b -> (forall x, In x u -> In x ts) -> In e (events E b) -> ground cs e.
Proof.
  intros [t Ht|v x G] Hu He.
  - cbn [events] in He. destruct (abs_tri (t_val t)) as [[]|]; try (destruct He; fail); destruct He as [<-|[]]; apply gr_const; auto; apply Hu; now left.
  - destruct x as [cl t ks].
    assert (Ev : events E (PT cl t ks) = match abs_operand (PT cl t ks) with Some (OAtt c n) => att_events E t c n | _ => [] end) by (inversion G; reflexivity).
    rewrite Ev in He. destruct (abs_operand (PT cl t ks)) as [[| |c n]|] eqn:Eo; try (destruct He; fail).
    eapply (ground_att cs v _ t c n ks cl G eq_refl); eauto.
Qed.

Lemma ground_in :
  (forall u a, g_exp u a -> (forall x, In x u -> In x ts) -> forall e, In e (events E a) -> ground (compared a) e) /\
  (forall u a, g_term u a -> (forall x, In x u -> In x ts) -> forall e, In e (events E a) -> ground (compared a) e) /\
  (forall u a, g_policy u a -> (forall x, In x u -> In x ts) -> forall e, In e (events E a) -> ground (compared a) e).
Proof.
  destruct no_truth_in as (N1 & N2 & N3).
  assert (B : forall u l a v r (b : bool) e, (forall x, In x (u ++ a :: v) -> In x ts) -> t_type a = BOOL_OP ->
    (b = true -> exists t c n, In t ts /\ t_type t = cat_type c /\ t_val t = TStr n /\ undefined (att_kind (E c n)) = false /\ (forall x, att_kind (E c n) <> KTri x)) ->
    (forall e, In e (events E l) -> ground (compared l) e) -> (forall e, In e (events E r) -> ground (compared r) e) ->
    In e (events E l ++ events E r ++ (if b then [bad_child "evaluate_bool_op_node" a] else [])) -> ground (compared l ++ compared r) e).
  { intros u l a v r b e Hu Ha Hb IHl IHr He. apply in_app_iff in He as [He|He]; [|apply in_app_iff in He as [He|He]].
    - eapply ground_incl; [|apply IHl; exact He]. intros x Hx. apply in_app_iff. auto.
    - eapply ground_incl; [|apply IHr; exact He]. intros x Hx. apply in_app_iff. auto.
    - destruct b; [|destruct He]. destruct He as [<-|[]]. destruct (Hb eq_refl) as (t & c & n & H1 & H2 & H3 & H4 & H5).
      eapply gr_bool; eauto. apply Hu. apply in_app_iff. right. now left. }
  apply g_mind; auto.
  - intros u l o v r Hl Ho Hr Hu e He. cbn [events compared] in *. apply in_app_iff in He as [He|He]; [|apply in_app_iff in He as [He|He]].
    + eapply ground_operand; [exact Hl| |exact He]. intros x Hx. apply Hu. apply in_app_iff. now left.
    + eapply ground_operand; [exact Hr| |exact He]. intros x Hx. apply Hu. apply in_app_iff. right. now right.
    + destruct (abs_cmp (t_val o)) as [c|]; [|destruct He]. destruct (abs_operand l) as [a|]; [|destruct He]. destruct (abs_operand r) as [b|]; [|destruct He].
      unfold cmp_events in He. destruct (undefined (operand_kind E a) || undefined (operand_kind E b)) eqn:Eu; [destruct He|].
      apply orb_false_iff in Eu as [E1 E2]. destruct (hash_fault c (operand_kind E a) (operand_kind E b)) eqn:Eh.
      * destruct He as [<-|[]]. apply (gr_hash _ c a b); [now left|exact E1|exact E2|exact Eh].
      * destruct (cmp_bool c (operand_kind E a) (operand_kind E b)) eqn:Eb; [destruct He|].
        rewrite (surjective_pairing (cmp_said c)), (surjective_pairing (carried _ _ _ _ _)) in He. destruct He as [<-|[]]. apply (gr_cmp _ c a b); [now left|exact E1|exact E2|exact Eh|exact Eb].
  - intros u b G Hu e He. eapply boolvar_ground; eauto.
  - intros t u b Ht G Hu e He. cbn [events compared] in *. apply in_app_iff in He as [He|He].
    + eapply boolvar_ground; eauto. intros x Hx. apply Hu. now right.
    + destruct (no_truth E b) eqn:En; [|destruct He]. destruct He as [<-|[]].
      destruct (no_truth_att u b G) as (s & c & n & H1 & H2 & H3 & H4 & H5); [intros x Hx; apply Hu; now right|exact En|].
      eapply gr_not; eauto. apply Hu. now left.
  - intros lp u p rp Hl G IH Hr Hu e He. apply IH; auto. intros x Hx. apply Hu. right. apply in_app_iff. now left.
  - intros t lp u p rp Ht Hl G IH Hr Hu e He. cbn [events compared] in *.
    assert (Hu' : forall x, In x u -> In x ts) by (intros x Hx; apply Hu; right; right; apply in_app_iff; now left).
    apply in_app_iff in He as [He|He].
    + apply IH; auto.
    + destruct (no_truth E p) eqn:En; [|destruct He]. destruct He as [<-|[]].
      destruct (N3 u p G Hu' En) as (s & c & n & H1 & H2 & H3 & H4 & H5). eapply gr_not; eauto. apply Hu. now left.
  - intros u l a v r Gl IHl [Ha _] Gr IHr Hu e He. cbn [events compared] in *.
    assert (Hl : forall x, In x u -> In x ts) by (intros y Hy; apply Hu; apply in_app_iff; left; exact Hy).
    assert (Hr : forall x, In x v -> In x ts) by (intros y Hy; apply Hu; apply in_app_iff; right; right; exact Hy).
    apply (B u l a v r (no_truth E l || no_truth E r) e Hu Ha); [|exact (IHl Hl)|exact (IHr Hr)|exact He]. intros Hb. apply orb_true_iff in Hb as [Hb|Hb]; [apply (N2 u l Gl Hl Hb)|apply (N1 v r Gr Hr Hb)].
  - intros u l a v r Gl IHl [Ha _] Gr IHr Hu e He. cbn [events compared] in *.
    assert (Hl : forall x, In x u -> In x ts) by (intros y Hy; apply Hu; apply in_app_iff; left; exact Hy).
    assert (Hr : forall x, In x v -> In x ts) by (intros y Hy; apply Hu; apply in_app_iff; right; right; exact Hy).
    apply (B u l a v r (no_truth E l || no_truth E r) e Hu Ha); [|exact (IHl Hl)|exact (IHr Hr)|exact He]. intros Hb. apply orb_true_iff in Hb as [Hb|Hb]; [apply (N3 u l Gl Hl Hb)|apply (N2 v r Gr Hr Hb)].
Qed.

End Grounds.

Lemma told_in l n : In n (fst (told l)) -> In (Says n) l.
Proof.
  induction l as [|[m|f] l IH]; cbn; auto; [|intros []]. destruct (told l) as [ns f]. cbn in *. intros [<-|H]; auto.
Qed.
Lemma told_stop l f : snd (told l) = Some f -> In (Stops f) l.
Proof.
  induction l as [|[m|g] l IH]; cbn; [discriminate| |].
  - destruct (told l) as [ns g]. cbn in *. intros ->. auto.
  - intros [= ->]. now left.
Qed.
Lemma compared_pol t : forall p, abs t = Some p -> forall x, In x (compared t) -> In x (pol_comparisons p).
Proof.
  induction t as [c t ks IH] using ptree_ind'. intros p Ha x Hx. apply abs_inv in Ha.
  destruct Ha as [(-> & -> & _)|[(k & s & Hc & Ht & -> & ->)|[(-> & k & q & -> & Hq & ->)|
    [(-> & l & r & o & a & b & -> & Ht & Ha & Hb & ->)|(-> & l & r & a & b & -> & Ha & Hb & Hp)]]]].
  - destruct Hx.
  - destruct c; try discriminate; destruct Hx.
  - inversion IH as [|? ? IHk _]; subst. cbn [compared pol_comparisons] in *. eauto.
  - cbn [compared pol_comparisons] in *. assert (Ho : abs_cmp (t_val t) = Some o) by (rewrite Ht; destruct o; reflexivity).
    rewrite Ho, Ha, Hb in Hx. exact Hx.
  - inversion IH as [|? ? IHl IH2]; subst. inversion IH2 as [|? ? IHr _]; subst. cbn [compared] in Hx. apply in_app_iff in Hx.
    assert (X : In x (pol_comparisons a ++ pol_comparisons b)) by (apply in_app_iff; destruct Hx; eauto).
    destruct Hp as [[_ ->]|[_ ->]]; exact X.
Qed.
