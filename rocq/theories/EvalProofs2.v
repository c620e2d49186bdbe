(** * EvalProofs2: evaluated trees, and evaluating them again *)

From Coq Require Import NArith ZArith List Bool String Lia.
From Verif Require Import PyBase PyNum Lexer LexSpec LexProofs Values Ast Parser Grammar ParseProofs ParseProofs2
  Syntax Symbols Interp EvalSpec EvalProofs.
Import ListNotations.
Open Scope Z_scope.

(** ** Subtrees *)

Inductive sub : ast -> ast -> Prop :=
| sub_here n : sub n n
| sub_kid s k c t i r ks : In k ks -> sub s k -> sub s (Node c t i r ks).

Lemma sub_trans a b c : sub a b -> sub b c -> sub a c.
Proof. intros H1 H2. revert H1. induction H2; auto. intros. eapply sub_kid; eauto. Qed.

(** ** Evaluation only changes results *)

Lemma eval_erase U h tb nd : erase (fst (fst (eval_node U h tb nd))) = erase nd.
Proof.
  induction nd as [c t i r ks IH] using ast_ind'. rewrite eval_node_unfold.
  assert (K : map erase (fst (fst (eval_kids U h tb ks))) = map erase ks).
  { induction IH as [|k ks Hk IH IH2]; auto. rewrite eval_kids_cons. unfold visit.
    destruct (rtruthy (n_result k)).
    - destruct (eval_kids U h tb ks) as [[ks' ws] e]. cbn in *. now rewrite IH2.
    - destruct (eval_node U h tb k) as [[k' ws1] [x|]]; cbn in *; [now rewrite Hk|].
      destruct (eval_kids U h tb ks) as [[ks' ws] e]. cbn in *. now rewrite Hk, IH2. }
  destruct (eval_kids U h tb ks) as [[ks' ws] [x|]]; cbn in *; [now rewrite K|].
  destruct (eval_self U h tb c t r ks') as [[r' ws2] x]. cbn. now rewrite K.
Qed.

Lemma visit_erase U h tb nd nd' ws e : visit U h tb nd = (nd', ws, e) -> erase nd' = erase nd.
Proof.
  unfold visit. destruct (rtruthy (n_result nd)); [now intros [= <- _ _]|].
  intros H. pose proof (eval_erase U h tb nd) as E. now rewrite H in E.
Qed.

Lemma eval_kids_all U h tb ks ks' ws : eval_kids U h tb ks = (ks', ws, None) ->
  Forall2 (fun k k' => exists w, visit U h tb k = (k', w, None)) ks ks'.
Proof.
  revert ks' ws. induction ks as [|k ks IH]; intros ks' ws H.
  - cbn in H. injection H as <- _. constructor.
  - rewrite eval_kids_cons in H. destruct (visit U h tb k) as [[k' w] [x|]] eqn:Ek; [discriminate|].
    destruct (eval_kids U h tb ks) as [[ks2 w2] e2]. injection H as <- _ ->. constructor; eauto.
Qed.

Lemma visit_eval U h tb c t i ks nd' ws : eval_node U h tb (Node c t i None ks) = (nd', ws, None) ->
  exists r' ks' w1 w2, nd' = Node c t i r' ks' /\ eval_kids U h tb ks = (ks', w1, None) /\
    eval_self U h tb c t None ks' = (r', w2, None) /\ ws = w1 ++ w2.
Proof.
  rewrite eval_node_unfold. destruct (eval_kids U h tb ks) as [[ks' w1] [x|]]; [discriminate|].
  destruct (eval_self U h tb c t None ks') as [[r' w2] x] eqn:Es. intros [= <- <- ->]. exists r', ks', w1, w2. auto.
Qed.

(** ** Trees all of whose nodes are policies or operands *)

Definition known (p : ptree) : Prop :=
  (exists q, abs p = Some q) \/ (exists o, abs_operand p = Some o).

Lemma abs_atom_operand p a : abs_atom p = Some a -> abs_operand p = Some (OAtom a).
Proof.
  destruct p as [c [ty tp v] ks]. destruct c; cbn; try discriminate; intros H; try (now rewrite H).
Qed.

Lemma optM_in {A B} (f : A -> option B) l ys x : optM f l = Some ys -> In x l -> exists y, f x = Some y.
Proof.
  revert ys. induction l as [|z l IH]; intros ys H Hi; [destruct Hi|].
  cbn in H. destruct (f z) eqn:Ez; [|discriminate]. destruct (optM f l) eqn:El; [|discriminate].
  destruct Hi as [->|Hi]; eauto.
Qed.

Lemma abs_operand_inv c t ks o : abs_operand (PT c t ks) = Some o ->
  (exists e l, c = CSet e /\ optM abs_atom ks = Some l /\ o = OSet l) \/
  (exists k s, abs_cat c = Some k /\ t_val t = TStr s /\ ks = [] /\ o = OAtt k s) \/
  (exists a, abs_atom (PT c t ks) = Some a /\ o = OAtom a).
Proof.
  destruct t as [ty tp v]. intros H. destruct c; cbn [abs_operand] in H;
  try (right; right; cbn [abs_cat] in H; destruct (abs_atom _) as [a|]; [|discriminate];
       injection H as <-; eauto; fail);
  try (right; left; cbn in H; destruct v as [|s| |]; try discriminate; destruct ks; try discriminate;
       injection H as <-; cbn; eexists _, s; eauto; fail).
  left. destruct (optM abs_atom ks) as [l|] eqn:El; [|discriminate]. injection H as <-. eauto 6.
Qed.

Lemma abs_atom_leaf c t ks a : abs_atom (PT c t ks) = Some a -> ks = [] /\
  (c = CInt \/ c = CFloat \/ c = CString \/ c = CNull).
Proof.
  destruct t as [ty tp v]. destruct c, v; cbn; try discriminate; destruct ks; try discriminate; auto 6.
Qed.

Lemma known_kids c t ks : known (PT c t ks) -> Forall known ks.
Proof.
  intros [[q H]|[o H]].
  - apply abs_inv in H as [(_ & -> & _)|[(k & s & _ & _ & -> & _)|[(_ & k & q' & -> & Hq & _)|
      [(_ & l & r & o & a & b & -> & _ & Ha & Hb & _)|(_ & l & r & a & b & -> & Ha & Hb & _)]]]]; auto.
    + constructor; auto. left. eauto.
    + constructor; [right; eauto|]. constructor; [right; eauto|auto].
    + constructor; [left; eauto|]. constructor; [left; eauto|auto].
  - apply abs_operand_inv in H as [(e & l & -> & Hl & ->)|[(k & s & _ & _ & -> & _)|(a & Ha & _)]]; auto.
    + apply Forall_forall. intros x Hx. destruct (optM_in _ _ _ _ Hl Hx) as [y Hy]. right.
      exists (OAtom y). now apply abs_atom_operand.
    + apply abs_atom_leaf in Ha as [-> _]. auto.
Qed.

(** What a node holds after a successful evaluation. *)
Section Settled.
Variable U : unicode.
Variable h : heap.
Variable tb : table.
Hypothesis Hh : heap_ok h.
Notation E := (table_env U h tb).

Definition holds (s : ast) : Prop :=
  (forall q, abs (erase s) = Some q ->
     match q with
     | PAtt _ _ => True
     | _ => faults E q = false /\ n_result s = Some (RV (VTri (den E q)))
     end) /\
  (forall o, abs_operand (erase s) = Some o -> zero_operand o = false /\
     exists rv, n_result s = Some rv /\ shows h rv (operand_kind E o)).
Definition settled (nd : ast) : Prop := forall s, sub s nd -> holds s.

Lemma settled_kids c t i r ks : settled (Node c t i r ks) -> Forall settled ks.
Proof. intros H. apply Forall_forall. intros k Hk s Hs. apply H. eapply sub_kid; eauto. Qed.

Lemma visit_holds nd nd' ws : fresh U nd -> visit U h tb nd = (nd', ws, None) -> holds nd'.
Proof.
  intros Hf Hv. unfold holds. rewrite (visit_erase _ _ _ _ _ _ _ Hv). split.
  - intros q Hq. destruct (visit_pol U h tb Hh nd q Hf Hq) as [O _]. rewrite Hv in O.
    destruct O as [_ O]. destruct (faults E q).
    + destruct O as [(c & n & ->) _]. exact I.
    + destruct q; auto.
  - intros o Ho. pose proof (visit_operand U h tb nd o Hf Ho) as V. rewrite Hv in V.
    destruct (zero_operand o).
    + destruct V as (? & ? & ? & _). discriminate.
    + split; auto. destruct V as (nd2 & rv & w & [= <- <-] & Hr & Hs & _). eauto.
Qed.

Lemma fresh_leaf c t i r ks : fresh U (Node c t i r ks) -> known (PT c t (map erase ks)) ->
  r = None \/ ks = [].
Proof.
  intros Hf [[q H]|[o H]].
  - apply abs_inv in H as [(_ & H & _)|[(k & s & _ & _ & H & _)|[(-> & _)|[(-> & _)|(-> & _)]]]];
    try (left; eapply fresh_no_result; [exact Hf|]; auto; fail); right; destruct ks; auto; discriminate.
  - apply abs_operand_inv in H as [(e & l & -> & Hl & ->)|[(k & s & _ & _ & H & _)|(a & Ha & _)]].
    + left. eapply fresh_no_result; [exact Hf|]. eauto 8.
    + right; destruct ks; auto; discriminate.
    + right. apply abs_atom_leaf in Ha as [H _]. destruct ks; auto; discriminate.
Qed.

Lemma visit_settled nd : fresh U nd -> known (erase nd) ->
  forall nd' ws, visit U h tb nd = (nd', ws, None) -> settled nd'.
Proof.
  induction nd as [c t i r ks IH] using ast_ind'. intros Hf Hk nd' ws Hv s Hs.
  assert (Ht : s = nd' \/ exists k, In k (n_kids nd') /\ sub s k).
  { inversion Hs; subst; cbn; eauto. }
  destruct Ht as [->|(k' & Hk' & Hs')]; [eapply visit_holds; eauto|].
  destruct (fresh_leaf _ _ _ _ _ Hf Hk) as [->| ->].
  - rewrite visit_none in Hv. apply visit_eval in Hv as (r' & ks' & w1 & w2 & -> & He & _).
    apply eval_kids_all in He. cbn [n_kids] in Hk'.
    apply fresh_unfold in Hf as [_ Hf]. cbn [erase] in Hk. apply known_kids in Hk.
    apply Forall_map in Hk. clear Hs.
    induction He as [|k k2 ks ks2 [w Hkv] He IH2]; [destruct Hk'|].
    inversion Hf as [|? ? Hfk Hfs]; subst. inversion IH as [|? ? IHk IHs]; subst.
    inversion Hk as [|? ? Hkk Hks]; subst.
    destruct Hk' as [->|Hk']; [|now apply IH2].
    eapply IHk; eauto.
  - exfalso. assert (n_kids nd' = []) as En.
    { unfold visit in Hv. destruct (rtruthy _); [now injection Hv as <- _|].
      rewrite eval_node_unfold in Hv. cbn in Hv. destruct (eval_self _ _ _ _ _ _ _) as [[r' w2] x].
      now injection Hv as <- _ _. }
    rewrite En in Hk'. destruct Hk'.
Qed.

End Settled.

(** ** A second evaluation with another table *)

Section Again.
Variable U : unicode.
Variable h : heap.
Variables tb1 tb2 : table.
Hypothesis Hh : heap_ok h.
Notation E1 := (table_env U h tb1).
Notation E2 := (table_env U h tb2).
Notation E12 := (mixed_env E1 E2).

Lemma mixed_kind c n : att_kind (E12 c n) = if kept (att_kind (E1 c n)) then att_kind (E1 c n) else att_kind (E2 c n).
Proof. unfold mixed_env. now destruct (kept _). Qed.

Definition again_outcome (p : pol) (v : ast * list warning * option exc) : Prop :=
  let '(nd', ws, e) := v in
  match e with
  | Some _ => refaults E1 E2 p = true
  | None => map w_kind ws = rewarns E1 E2 p /\
            if refaults E1 E2 p then exists l, n_result nd' = Some (RSym l)
            else n_result nd' = Some (RV (VTri (reden E1 E2 p)))
  end.

Lemma att_cls c k : abs_cat c = Some k -> is_att_cls c = true.
Proof. destruct c; try discriminate; reflexivity. Qed.
Lemma att_self tb c k t r ks : abs_cat c = Some k -> eval_self U h tb c t r ks = eval_att U h tb c t r.
Proof. destruct c; try discriminate; reflexivity. Qed.

Lemma shows_truthy rv k : shows h rv k -> match k with KAtom _ | KLit _ => False | _ => True end ->
  rtruthy (Some rv) = kept k.
Proof. destruct 1 as [|t Ht|a|l|l Hl|l m Hl|l m Hl]; intros H; try reflexivity; try destruct H. Qed.

Lemma revisit_operand nd o : settled U h tb1 nd -> abs_operand (erase nd) = Some o ->
  exists nd' rv ws, visit U h tb2 nd = (nd', ws, None) /\ n_result nd' = Some rv /\
    shows h rv (operand_kind E12 o) /\ map w_kind ws = operand_rewarns E1 E2 o.
Proof.
  intros Hs Ho. destruct (Hs nd (sub_here nd)) as [_ Hn]. destruct (Hn o Ho) as (Hz & rv & Hr & Hsh).
  destruct nd as [c t i r ks]. cbn in Hr. subst r. cbn [erase] in Ho.
  apply abs_operand_inv in Ho as [(e & l & -> & Hl & ->)|[(k & s & Hc & Ht & H & ->)|(a & Ha & ->)]].
  - cbn [operand_kind] in *. inversion Hsh; subst. destruct l as [|a l].
    + destruct ks as [|k ks].
      * cbn. eexists _, _, _. split; [reflexivity|]. split; [reflexivity|]. split; [apply (sh_lit h [])|reflexivity].
      * cbn in Hl. destruct (abs_atom (erase k)); [|discriminate]. destruct (optM _ _); discriminate.
    + eexists _, _, _. split; [reflexivity|]. split; [reflexivity|]. split; [exact Hsh|auto].
  - destruct ks; [|discriminate]. cbn [operand_kind] in *. unfold visit. cbn [n_result].
    rewrite mixed_kind. cbn [operand_rewarns]. rewrite (shows_truthy _ _ Hsh (att_kind_att _)). destruct (kept (att_kind (E1 k s))).
    + eexists _, _, _. split; [reflexivity|]. split; [reflexivity|]. split; [exact Hsh|auto].
    + rewrite eval_node_unfold. cbn [eval_kids]. rewrite (att_self _ _ k) by auto.
      destruct (eval_att_ok U h tb2 c t (Some rv) k s Hc Ht) as (rv2 & ws & -> & Hs2 & Hw).
      eexists _, _, _. split; [reflexivity|]. split; [reflexivity|]. split; [exact Hs2|exact Hw].
  - cbn [operand_kind zero_operand] in *. inversion Hsh; subst.
    unfold visit. cbn [n_result rtruthy]. rewrite truthy_atom, Hz.
    eexists _, _, _. split; [reflexivity|]. split; [reflexivity|]. split; [exact Hsh|reflexivity].
Qed.

Lemma cmp_node t l rk r0 o a b :
  settled U h tb1 l -> settled U h tb1 rk ->
  abs_operand (erase l) = Some a -> abs_operand (erase rk) = Some b -> t_val t = TStr (cmp_str o) ->
  forall i, let '(nd', ws, e) := eval_node U h tb2 (Node COp t i r0 [l; rk]) in
  match e with
  | Some _ => cmp_faults E12 o a b = true
  | None => cmp_faults E12 o a b = false /\ map w_kind ws = cmp_rewarns E1 E2 o a b /\
            n_result nd' = Some (RV (VTri (cmp_den o (operand_kind E12 a) (operand_kind E12 b))))
  end.
Proof.
  intros Hsl Hsr Ha Hb Ht i.
  destruct (Hsl l (sub_here l)) as [_ Hzl]. destruct (Hzl a Ha) as [Za _].
  destruct (Hsr rk (sub_here rk)) as [_ Hzr]. destruct (Hzr b Hb) as [Zb _]. clear Hzl Hzr.
  destruct (revisit_operand l a Hsl Ha) as (l' & lv & wl & Vl & Hlr & Hls & Hlw).
  destruct (revisit_operand rk b Hsr Hb) as (r' & rv & wr & Vr & Hrr & Hrs & Hrw).
  rewrite eval_node_unfold, eval_kids_cons, Vl, eval_kids_cons, Vr. cbn [eval_kids eval_self].
  unfold cmp_faults. rewrite Za, Zb. cbn [orb].
  unfold eval_op. rewrite Hlr, Hrr, Ht, cmp_str_upper.
  assert (Hex : existsb (str_eqb (cmp_str o)) [lit "="; lit "!="; lit "<"; lit ">"; lit "<="; lit ">="; lit "IN"; lit "SUBSET"] = true)
    by (destruct o; reflexivity).
  cbv zeta. rewrite Hex.
  assert (Ul : is_undef lv = undefined (operand_kind E12 a)).
  { destruct Hls as [|[]|[]| | | |]; auto; congruence. }
  assert (Ur : is_undef rv = undefined (operand_kind E12 b)).
  { destruct Hrs as [|[]|[]| | | |]; auto; congruence. }
  rewrite Ul, Ur. unfold cmp_den, cmp_rewarns. rewrite <- Hlw, <- Hrw.
  destruct (undefined (operand_kind E12 a) || undefined (operand_kind E12 b)) eqn:Eu; cbn [negb andb].
  { split; auto. split; auto. now rewrite !map_app, <- !app_assoc. }
  apply orb_false_iff in Eu as [Eu1 Eu2].
  rewrite (run_op_ok h Hh o lv rv _ _ (t_pos t) Hls Hrs Eu1 Eu2). unfold expect.
  destruct (hash_fault o (operand_kind E12 a) (operand_kind E12 b)); [reflexivity|].
  destruct (cmp_bool o (operand_kind E12 a) (operand_kind E12 b)) as [[]|]; (split; [reflexivity|]);
  (split; [|reflexivity]); cbn; now rewrite !map_app, <- ?app_assoc.
Qed.

(** The node itself, its children being visited. *)
Definition root_again (p : pol) (v : ast * list warning * option exc) : Prop :=
  let '(nd', ws, e) := v in
  match p with
  | PConst _ => e <> None
  | PAtt c n => e = None /\ map w_kind ws = root_rewarns E1 E2 p /\ exists rv, n_result nd' = Some rv /\ shows h rv (att_kind (E2 c n))
  | _ => match e with
         | Some _ => root_refaults E1 E2 p = true
         | None => root_refaults E1 E2 p = false /\ map w_kind ws = root_rewarns E1 E2 p /\
                   n_result nd' = Some (RV (VTri (root_reden E1 E2 p)))
         end
  end.

Lemma revisit_pol nd : forall p, settled U h tb1 nd -> abs (erase nd) = Some p ->
  again_outcome p (visit U h tb2 nd) /\ root_again p (eval_node U h tb2 nd).
Proof.
  induction nd as [c t i r ks IH] using ast_ind'. intros p Hs Ha.
  destruct (Hs _ (sub_here _)) as [Hn Hop]. specialize (Hn p Ha). cbn [n_result] in Hn.
  pose proof (settled_kids _ _ _ _ _ _ _ _ Hs) as Hsk.
  cbn [erase] in Ha.
  (* from the node to a visit of it *)
  assert (Lift : (match p with PConst _ | PAtt _ _ => False | _ => True end) ->
     root_again p (eval_node U h tb2 (Node c t i r ks)) ->
     again_outcome p (visit U h tb2 (Node c t i r ks))).
  { intros Hp R.
    assert (Hr : r = Some (RV (VTri (den E1 p)))) by (destruct p; tauto).
    subst r. unfold visit. cbn [n_result rtruthy truthy].
    destruct (tri_truth (den E1 p)) eqn:Et.
    - assert (Hd : den E1 p = TRUE) by (destruct (den E1 p); auto; discriminate).
      unfold again_outcome. destruct p; try destruct Hp; cbn [refaults reden rewarns n_result]; rewrite Hd; auto.
    - destruct (eval_node U h tb2 _) as [[nd' ws] e]. unfold root_again in R. unfold again_outcome.
      destruct p; try destruct Hp; cbn [refaults reden rewarns root_refaults root_reden root_rewarns] in *;
      (destruct (den E1 _); [discriminate| |]);
      (destruct e; [exact R|destruct R as (R1 & R2 & R3); now rewrite R1]). }
  apply abs_inv in Ha.
  destruct Ha as [(-> & Hks & x & Ht & ->)|[(k & s & Hc & Ht & Hks & ->)|[(-> & k & q & Hks & Hq & ->)|
    [(-> & lt & rt & o & a & b & Hks & Ht & Ha & Hb & ->)|(-> & lt & rt & a & b & Hks & Ha & Hb & Hp)]]]].
  - destruct Hn as [Hn ->]. destruct x; try discriminate Hn. destruct ks; [|discriminate].
    split; [split; reflexivity|]. cbn. discriminate.
  - destruct ks; [|discriminate].
    assert (Ho : abs_operand (erase (Node c t i r [])) = Some (OAtt k s)).
    { destruct t as [ty tp v]. cbn in Ht. subst v. destruct c; try discriminate; injection Hc as <-; reflexivity. }
    split.
    + destruct (revisit_operand _ _ Hs Ho) as (nd' & rv & ws & -> & Hr & Hsh & Hw).
      cbn [again_outcome]. cbn [operand_kind] in Hsh. destruct (Hop _ Ho) as (_ & rv1 & Hr1 & Hs1).
      cbn [n_result operand_kind operand_rewarns] in *. cbn [refaults reden rewarns den operand_rewarns].
      pose proof (mixed_kind k s) as M.
      destruct (att_kind (E1 k s)) as [|[]|a|l|v|l] eqn:Ek; cbn [kept] in M, Hw; rewrite ?M in Hsh; rewrite ?M; cbn [kept]; (split; [exact Hw|]);
      try (inversion Hsh; subst; eauto; fail).
      all: pose proof (att_kind_att (E2 k s)) as Hk2; pose proof (att_kind_att (E1 k s)) as Hk1;
      rewrite Ek in Hk1; try destruct Hk1;
      rewrite Hr; destruct Hsh; eauto; now destruct Hk2.
    + unfold root_again. rewrite eval_node_unfold. cbn [eval_kids]. rewrite (att_self _ _ k) by auto.
      destruct (eval_att_ok U h tb2 c t r k s Hc Ht) as (rv2 & ws & -> & Hs2 & Hw). cbn [app].
      repeat split; auto. exists rv2. auto.
  - destruct ks as [|kd [|]]; try discriminate. injection Hks as <-.
    inversion IH as [|? ? IHk _]; subst. inversion Hsk as [|? ? Hsd _]; subst.
    destruct (IHk q Hsd Hq) as [O _].
    assert (R : root_again (PNot q) (eval_node U h tb2 (Node CNot t i r [kd]))).
    { rewrite eval_node_unfold, eval_kids_cons. cbn [eval_kids].
      destruct (visit U h tb2 kd) as [[kd' ws] [x|]]; cbn [again_outcome] in O.
      - exact O.
      - cbn [eval_self eval_not]. destruct (refaults E1 E2 q) eqn:Ef.
        + destruct O as (_ & l & ->). exact Ef.
        + destruct O as [Hw ->]. cbn. rewrite knot_ok, !app_nil_r. auto. }
    split; auto.
  - destruct ks as [|l [|rk [|]]]; try discriminate. injection Hks as <- <-.
    inversion Hsk as [|? ? Hsl Hs2]; subst. inversion Hs2 as [|? ? Hsr _]; subst.
    assert (R : root_again (PCmp o a b) (eval_node U h tb2 (Node COp t i r [l; rk]))).
    { exact (cmp_node t l rk r o a b Hsl Hsr Ha Hb Ht i). }
    split; auto.
  - destruct ks as [|l [|rk [|]]]; try discriminate. injection Hks as <- <-.
    inversion Hsk as [|? ? Hsl Hs2]; subst. inversion Hs2 as [|? ? Hsr _]; subst.
    inversion IH as [|? ? IHl IH2]; subst. inversion IH2 as [|? ? IHr _]; subst.
    destruct (IHl a Hsl Ha) as [Ol _]. destruct (IHr b Hsr Hb) as [Or _].
    assert (R : root_again p (eval_node U h tb2 (Node CBoolOp t i r [l; rk]))).
    { rewrite eval_node_unfold, eval_kids_cons.
      assert (Q : match p with PConst _ | PAtt _ _ => False | _ => True end) by (destruct Hp as [[_ ->]|[_ ->]]; exact I).
      assert (Q2 : root_refaults E1 E2 p = refaults E1 E2 a || refaults E1 E2 b)
        by (destruct Hp as [[_ ->]|[_ ->]]; reflexivity).
      assert (Q3 : root_rewarns E1 E2 p = rewarns E1 E2 a ++ rewarns E1 E2 b)
        by (destruct Hp as [[_ ->]|[_ ->]]; reflexivity).
      destruct (visit U h tb2 l) as [[l' wl] [x|]]; cbn [again_outcome] in Ol.
      { unfold root_again. rewrite Q2, Ol. destruct p; tauto. }
      rewrite eval_kids_cons. destruct (visit U h tb2 rk) as [[r' wr] [x|]]; cbn [again_outcome] in Or.
      { unfold root_again. rewrite Q2, Or, orb_true_r. destruct p; tauto. }
      cbn [eval_kids eval_self]. unfold eval_bool_op. unfold root_again. rewrite Q2, Q3.
      destruct Ol as [Wl Ol], Or as [Wr Or]. destruct (refaults E1 E2 a); cbn [orb].
      { destruct Ol as [la ->]. destruct (n_result r'); destruct p; tauto. }
      rewrite Ol. destruct (refaults E1 E2 b).
      { destruct Or as [lb ->]. destruct p; tauto. }
      rewrite Or. destruct Hp as [[Ht ->]|[Ht ->]]; rewrite Ht; cbn; rewrite !app_nil_r, map_app, Wl, Wr, ?kand_ok, ?kor_ok; auto. }
    split; auto. apply Lift; auto. destruct Hp as [[_ ->]|[_ ->]]; exact I.
Qed.

End Again.
