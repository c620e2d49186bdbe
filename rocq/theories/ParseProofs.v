(** * ParseProofs: the parser against the grammar *)

From Coq Require Import NArith ZArith List Bool String Lia.
From Verif Require Import PyBase PyNum Lexer LexSpec LexProofs Values Ast Parser Grammar.
Import ListNotations.
Open Scope Z_scope.

Lemma ttype_eqb_eq a b : ttype_eqb a b = true <-> a = b.
Proof. split; [destruct a, b; cbn; congruence|intros ->; destruct b; reflexivity]. Qed.
Lemma ttype_eqb_refl a : ttype_eqb a a = true.
Proof. now apply ttype_eqb_eq. Qed.
Lemma ttype_eqb_neq a b : ttype_eqb a b = false <-> a <> b.
Proof.
  split.
  - intros H ->. now rewrite ttype_eqb_refl in H.
  - intros H. destruct (ttype_eqb a b) eqn:E; auto. now apply ttype_eqb_eq in E.
Qed.

Lemma is_bool_op_word w t : is_bool_op w t = true <-> is_word BOOL_OP w t.
Proof.
  unfold is_bool_op, is_word. rewrite andb_true_iff, ttype_eqb_eq.
  split; intros [H1 H2]; split; auto.
  - destruct (t_val t); cbn in H2; try discriminate. apply str_eqb_eq in H2. congruence.
  - rewrite H2. cbn. apply str_eqb_refl.
Qed.

Section WithUnicode.
Variable U : unicode.

Notation build := (build U).
Notation build_list := (build_list U).

Lemma build_unfold c t ks n :
  build (PT c t ks) n =
  ('(kl, n1) <- build_list ks n ;; rv <- init_result U c t ;; Ok (Node c t (n1 + 1) rv kl, n1 + 1)).
Proof.
  reflexivity.
Qed.

Lemma mk_node_build c t ks kl n n1 :
  build_list ks n = Ok (kl, n1) -> mk_node U c t kl n1 = build (PT c t ks) n.
Proof. intros H. rewrite build_unfold, H. reflexivity. Qed.

(** Fresh node, remaining tokens, counter. *)
Definition lift (r : res (ast * Z)) (rest : list token) : res (ast * list token * Z) :=
  '(a, n) <- r ;; Ok (a, rest, n).

(** ** Simple rules: exact behaviour *)

Lemma eat_ok ty ts t r : eat ty ts = Ok (t, r) <-> ts = t :: r /\ t_type t = ty.
Proof.
  unfold eat. destruct ts as [|t0 ts]; cbn; [split; [discriminate|intros [[=] _]]|].
  destruct (ttype_eqb (t_type t0) ty) eqn:E.
  - apply ttype_eqb_eq in E. split; [intros [= -> ->]; auto|intros [[= -> ->] _]; auto].
  - apply ttype_eqb_neq in E. split; [discriminate|intros [[= -> ->] ?]; congruence].
Qed.

Lemma eat_hit ty t r : t_type t = ty -> eat ty (t :: r) = Ok (t, r).
Proof. intros. apply eat_ok. auto. Qed.

Ltac invb H :=
  repeat match type of H with
  | bind _ _ = Ok _ => let x := fresh in let H1 := fresh in
      apply bind_ok in H as (x & H1 & H); try destruct x; try (injection H as <-)
  end.

Lemma att_name_rule_ok ts n a ts' n' :
  att_name_rule U ts n = Ok (a, ts', n') ->
  exists u p, ts = u ++ ts' /\ g_att u p /\ build p n = Ok (a, n').
Proof.
  unfold att_name_rule. destruct ts as [|t ts]; [discriminate|]. cbn [cur bind tl].
  destruct (t_type t) eqn:E; cbn; try discriminate; intros [= <- <- <-];
  (exists [t]; eexists; repeat split; [now constructor|reflexivity]).
Qed.

Lemma att_name_rule_run u p rest n :
  g_att u p -> att_name_rule U (u ++ rest) n = lift (build p n) rest.
Proof. destruct 1 as [t E|t E|t E|t E|t E]; unfold att_name_rule; cbn; rewrite E; reflexivity. Qed.

Lemma atomic_rule_ok ts n a ts' n' :
  atomic_rule U ts n = Ok (a, ts', n') ->
  exists u p, ts = u ++ ts' /\ g_atomic u p /\ build p n = Ok (a, n').
Proof.
  unfold atomic_rule. destruct ts as [|t ts]; [discriminate|]. cbn [cur bind tl].
  destruct (t_type t) eqn:E; cbn; try discriminate; intros [= <- <- <-];
  (exists [t]; eexists; repeat split; [now constructor|reflexivity]).
Qed.

Lemma atomic_rule_run u p rest n :
  g_atomic u p -> atomic_rule U (u ++ rest) n = lift (build p n) rest.
Proof. destruct 1 as [t E|t E|t E|t E]; unfold atomic_rule; cbn; rewrite E; reflexivity. Qed.

Lemma bool_var_rule_ok ts n a ts' n' :
  bool_var_rule U ts n = Ok (a, ts', n') ->
  exists u p, ts = u ++ ts' /\ g_boolvar u p /\ build p n = Ok (a, n').
Proof.
  unfold bool_var_rule. destruct ts as [|t ts]; [discriminate|]. cbn [cur bind].
  destruct (ttype_eqb (t_type t) BOOL) eqn:E.
  - apply ttype_eqb_eq in E. intros H. apply bind_ok in H as ([nd m] & H & [= <- <- <-]).
    exists [t], (PT CBoolVal t []). repeat split; [now constructor|].
    rewrite <- H. reflexivity.
  - intros H. apply att_name_rule_ok in H as (u & p & -> & ? & ?).
    exists u, p. repeat split; auto. now constructor.
Qed.

Lemma g_att_head u p : g_att u p -> exists t, u = [t] /\ is_att t = true.
Proof. destruct 1 as [t E|t E|t E|t E|t E]; exists t; unfold is_att; rewrite E; auto. Qed.

Lemma g_atomic_head u p : g_atomic u p -> exists t, u = [t] /\ is_atomic t = true.
Proof. destruct 1 as [t E|t E|t E|t E]; exists t; unfold is_atomic; rewrite E; auto. Qed.

Lemma is_att_type_neq t ty : is_att t = true -> is_att (Tok ty 0 TNone) = false -> ttype_eqb (t_type t) ty = false.
Proof. intros H H2. apply ttype_eqb_neq. intros <-. unfold is_att in *. cbn in H2. congruence. Qed.

Lemma is_atomic_type_neq t ty : is_atomic t = true -> is_atomic (Tok ty 0 TNone) = false -> ttype_eqb (t_type t) ty = false.
Proof. intros H H2. apply ttype_eqb_neq. intros <-. unfold is_atomic in *. cbn in H2. congruence. Qed.

Lemma bool_var_rule_run u p rest n :
  g_boolvar u p -> bool_var_rule U (u ++ rest) n = lift (build p n) rest.
Proof.
  destruct 1 as [t E|u p H].
  - unfold bool_var_rule. cbn [app cur bind]. rewrite E, ttype_eqb_refl.
    unfold lift. rewrite <- (mk_node_build _ _ _ _ _ _ (eq_refl : build_list [] n = Ok ([], n))).
    reflexivity.
  - pose proof (g_att_head _ _ H) as (t & -> & Ht).
    unfold bool_var_rule. cbn [app cur bind]. rewrite is_att_type_neq by auto.
    apply (att_name_rule_run _ _ rest n H).
Qed.

(** Elements of a set after the first: "," atomic "," atomic ... *)
Inductive g_tail : list token -> list ptree -> Prop :=
| gtl_nil : g_tail [] []
| gtl_cons c u a v l : t_type c = COMMA -> g_atomic u a -> g_tail v l -> g_tail (c :: u ++ v) (a :: l).

Lemma setval_tail u l : g_setval u l <-> exists v w a m, u = v ++ w /\ l = a :: m /\ g_atomic v a /\ g_tail w m.
Proof.
  split.
  - induction 1 as [u a H|u a c v l H Hc Hv (v1 & w1 & a1 & m1 & -> & -> & H1 & Ht)].
    + exists u, [], a, []. rewrite app_nil_r. repeat split; auto. constructor.
    + exists u, (c :: v1 ++ w1), a, (a1 :: m1). repeat split; auto. now constructor.
  - intros (v & w & a & m & -> & -> & Ha & Ht). revert v a Ha.
    induction Ht as [|c u b w m Hc Hb Ht IH]; intros v a Ha.
    + rewrite app_nil_r. now constructor.
    + apply gsv_more; auto.
Qed.

Lemma set_loop_ok fuel ts n l ts' n' :
  set_loop U fuel ts n = Ok (l, ts', n') ->
  exists u ps, ts = u ++ ts' /\ g_tail u ps /\ build_list ps n = Ok (l, n') /\
    exists t r, ts' = t :: r /\ t_type t = RSET.
Proof.
  revert ts n l ts' n'; induction fuel as [|fuel IH]; intros ts n l ts' n'; cbn [set_loop]; [discriminate|].
  destruct ts as [|t ts]; [discriminate|]. cbn [cur bind].
  destruct (ttype_eqb (t_type t) RSET) eqn:E.
  - intros [= <- <- <-]. apply ttype_eqb_eq in E. exists [], []. repeat split; eauto. constructor.
  - intros H. apply bind_ok in H as ([c ts1] & Hc & H).
    apply bind_ok in H as ([[nd ts2] n1] & Ha & H).
    apply bind_ok in H as ([[nds ts3] n2] & Hl & [= <- <- <-]).
    apply eat_ok in Hc as [[= <- <-] Hc].
    apply atomic_rule_ok in Ha as (u & a & -> & Ha & Hb).
    apply IH in Hl as (v & ps & -> & Ht & Hbl & Hend).
    exists (t :: u ++ v), (a :: ps). cbn [app]. rewrite app_assoc. repeat split; auto.
    + now constructor.
    + cbn [Grammar.build_list]. now rewrite Hb; cbn [bind]; rewrite Hbl.
Qed.

Lemma set_loop_run u ps :
  g_tail u ps -> forall fuel t r n, t_type t = RSET -> (List.length u < fuel)%nat ->
  set_loop U fuel (u ++ t :: r) n = ('(l, n') <- build_list ps n ;; Ok (l, t :: r, n')).
Proof.
  induction 1 as [|c u a v l Hc Ha Hv IH]; intros fuel t r n Ht Hf.
  - destruct fuel; [cbn in Hf; lia|]. cbn. rewrite Ht. reflexivity.
  - destruct fuel as [|fuel]; [cbn in Hf; lia|]. cbn [set_loop app cur bind].
    rewrite Hc. cbn [ttype_eqb]. rewrite eat_hit by auto. cbn [bind].
    rewrite <- app_assoc, (atomic_rule_run _ _ _ _ Ha). unfold lift. cbn [Grammar.build_list].
    destruct (build a n) as [[nd n1]|]; cbn [bind]; auto.
    rewrite IH; auto.
    + destruct (build_list l n1) as [[]|]; reflexivity.
    + cbn [List.length] in Hf. rewrite app_length in Hf. lia.
Qed.

Lemma set_rule_ok ts n a ts' n' :
  set_rule U ts n = Ok (a, ts', n') ->
  exists u p, ts = u ++ ts' /\ g_set u p /\ build p n = Ok (a, n').
Proof.
  unfold set_rule. intros H. apply bind_ok in H as ([lb ts1] & Hl & H).
  apply eat_ok in Hl as [-> Hl]. destruct ts1 as [|t ts1]; [discriminate|]. cbn [cur bind] in H.
  apply bind_ok in H as ([[nds ts2] n1] & Hm & H).
  apply bind_ok in H as ([rb ts3] & Hr & H). apply eat_ok in Hr as [-> Hr].
  apply bind_ok in H as ([nd n2] & Hmk & [= <- <- <-]).
  destruct (ttype_eqb (t_type t) RSET) eqn:E.
  - injection Hm as <- <- <- <-. apply ttype_eqb_eq in E.
    exists [lb; t], (PT (CSet (Some t)) lb []). repeat split; auto. now constructor.
  - apply bind_ok in Hm as ([[nd0 ts4] n0] & Ha & Hm).
    apply bind_ok in Hm as ([[nds1 ts5] n3] & Hs & [= <- -> <-]).
    apply atomic_rule_ok in Ha as (u & p & Hu & Ha & Hb).
    apply set_loop_ok in Hs as (v & ps & -> & Ht & Hbl & _).
    exists (lb :: (u ++ v) ++ [rb]), (PT (CSet (Some rb)) lb (p :: ps)). repeat split.
    + rewrite Hu. cbn. now rewrite <- !app_assoc.
    + apply gs_some; auto. apply setval_tail. exists u, v, p, ps. auto.
    + assert (Hb2 : build_list (p :: ps) n = Ok (nd0 :: nds1, n3)) by (cbn [Grammar.build_list]; now rewrite Hb; cbn [bind]; rewrite Hbl).
      rewrite <- Hmk. symmetry. now apply mk_node_build.
Qed.

Lemma set_rule_run u p rest n :
  g_set u p -> set_rule U (u ++ rest) n = lift (build p n) rest.
Proof.
  destruct 1 as [lb rb Hl Hr|lb u l rb Hl Hu Hr]; unfold set_rule.
  - cbn [app]. rewrite eat_hit by auto. cbn [bind cur]. rewrite Hr, ttype_eqb_refl. cbn [bind].
    rewrite eat_hit by auto. reflexivity.
  - apply setval_tail in Hu as (v & w & a & m & -> & -> & Ha & Ht).
    cbn [app]. rewrite eat_hit by auto. cbn [bind].
    pose proof (g_atomic_head _ _ Ha) as (t & -> & Hat). cbn [app cur bind].
    rewrite is_atomic_type_neq by auto.
    change (t :: ((w ++ [rb]) ++ rest)) with ([t] ++ ((w ++ [rb]) ++ rest)).
    rewrite (atomic_rule_run _ _ _ _ Ha). rewrite build_unfold. cbn [Grammar.build_list].
    unfold lift. destruct (build a n) as [[nd n1]|]; cbn [bind]; auto.
    rewrite <- app_assoc. cbn [app].
    rewrite (set_loop_run _ _ Ht) by (auto; rewrite app_length; lia).
    destruct (build_list m n1) as [[nds n2]|]; cbn [bind]; auto.
    rewrite eat_hit by auto. cbn. reflexivity.
Qed.

Lemma var_rule_ok ts n a ts' n' :
  var_rule U ts n = Ok (a, ts', n') ->
  exists u p, ts = u ++ ts' /\ g_var u p /\ build p n = Ok (a, n').
Proof.
  unfold var_rule, const_rule. destruct ts as [|t ts]; [discriminate|]. cbn [cur bind].
  destruct (is_att t); [|destruct (is_const t); [|discriminate]; destruct (is_atomic t)]; intros H.
  - apply att_name_rule_ok in H as (u & p & ? & ? & ?). exists u, p. auto using gv_att.
  - apply atomic_rule_ok in H as (u & p & ? & ? & ?). exists u, p. auto using gv_atomic.
  - apply set_rule_ok in H as (u & p & ? & ? & ?). exists u, p. auto using gv_set.
Qed.

Lemma is_atomic_not_att t : is_atomic t = true -> is_att t = false.
Proof. unfold is_atomic, is_att. destruct (t_type t); congruence. Qed.

Lemma g_set_head u p : g_set u p -> exists t v, u = t :: v /\ t_type t = LSET.
Proof. destruct 1; eauto. Qed.

Lemma var_rule_run u p rest n :
  g_var u p -> var_rule U (u ++ rest) n = lift (build p n) rest.
Proof.
  destruct 1 as [u p H|u p H|u p H].
  - pose proof (g_atomic_head _ _ H) as (t & -> & Ht). unfold var_rule, const_rule.
    cbn [app cur bind]. unfold is_const. rewrite Ht, is_atomic_not_att by auto. cbn [orb].
    apply (atomic_rule_run _ _ rest n H).
  - pose proof (g_set_head _ _ H) as (t & v & -> & Ht). unfold var_rule, const_rule.
    cbn [app cur bind]. unfold is_att, is_const, is_atomic. rewrite Ht. cbn [orb ttype_eqb ttype_val].
    apply (set_rule_run _ _ rest n H).
  - pose proof (g_att_head _ _ H) as (t & -> & Ht). unfold var_rule.
    cbn [app cur bind]. rewrite Ht. apply (att_name_rule_run _ _ rest n H).
Qed.

(** ** Soundness *)

Definition rule_ok (G : list token -> ptree -> Prop)
    (f : list token -> Z -> res (ast * list token * Z)) : Prop :=
  forall ts n a ts' n', f ts n = Ok (a, ts', n') ->
  exists u p, ts = u ++ ts' /\ G u p /\ build p n = Ok (a, n').

Definition loop_ok (G : list token -> ptree -> Prop)
    (f : ast -> list token -> Z -> res (ast * list token * Z)) : Prop :=
  forall a0 ts n a ts' n', f a0 ts n = Ok (a, ts', n') ->
  forall u0 p0 n0, G u0 p0 -> build p0 n0 = Ok (a0, n) ->
  exists u p, ts = u ++ ts' /\ G (u0 ++ u) p /\ build p n0 = Ok (a, n').

Lemma rules_sound fuel :
  rule_ok g_exp (exp_rule U fuel) /\ loop_ok g_term (term_loop U fuel) /\
  rule_ok g_term (term_rule U fuel) /\ loop_ok g_policy (policy_loop U fuel) /\
  rule_ok g_policy (policy_rule U fuel).
Proof.
  induction fuel as [|fuel (IHe & IHtl & IHt & IHpl & IHp)].
  { repeat split; repeat intro; discriminate. }
  assert (Paren : forall lp ts n s ts2 n1 rp ts3,
    t_type lp = LPARN -> policy_rule U fuel ts n = Ok (s, ts2, n1) -> eat RPARN ts2 = Ok (rp, ts3) ->
    exists u p, lp :: ts = (lp :: u ++ [rp]) ++ ts3 /\ g_policy u p /\ t_type rp = RPARN /\ build p n = Ok (s, n1)).
  { intros lp ts n s ts2 n1 rp ts3 Hlp Hp Hr. apply eat_ok in Hr as [-> Hr].
    apply IHp in Hp as (u & p & -> & Hp & Hb). exists u, p. repeat split; auto.
    cbn. now rewrite <- app_assoc. }
  repeat split.
  - intros ts n a ts' n'. cbn [exp_rule]. destruct ts as [|t ts]; [discriminate|]. cbn [cur bind tl].
    destruct (ttype_eqb (t_type t) NOT_OP) eqn:En.
    + apply ttype_eqb_eq in En. destruct ts as [|t1 ts]; [discriminate|]. cbn [cur bind tl].
      intros H. apply bind_ok in H as ([[sub ts2] n1] & Hs & H).
      apply bind_ok in H as ([nd n2] & Hmk & [= <- <- <-]).
      destruct (ttype_eqb (t_type t1) LPARN) eqn:El.
      * apply ttype_eqb_eq in El. apply bind_ok in Hs as ([[s ts3] n3] & Hp & Hs).
        apply bind_ok in Hs as ([rp ts4] & Hr & [= <- <- <-]).
        destruct (Paren _ _ _ _ _ _ _ _ El Hp Hr) as (u & p & Hu & Hg & Hrp & Hb).
        exists (t :: t1 :: u ++ [rp]), (PT CNot t [p]). repeat split.
        { rewrite Hu. reflexivity. }
        { now apply ge_not_paren. }
        { rewrite <- Hmk. symmetry. apply mk_node_build. cbn [Grammar.build_list]. now rewrite Hb. }
      * apply bool_var_rule_ok in Hs as (u & p & Hu & Hg & Hb).
        exists (t :: u), (PT CNot t [p]). repeat split.
        { rewrite Hu. reflexivity. }
        { now apply ge_not_bool. }
        { rewrite <- Hmk. symmetry. apply mk_node_build. cbn [Grammar.build_list]. now rewrite Hb. }
    + destruct (ttype_eqb (t_type t) LPARN) eqn:El.
      * apply ttype_eqb_eq in El. intros H.
        apply bind_ok in H as ([[s ts3] n3] & Hp & Hs).
        apply bind_ok in Hs as ([rp ts4] & Hr & [= <- <- <-]).
        destruct (Paren _ _ _ _ _ _ _ _ El Hp Hr) as (u & p & Hu & Hg & Hrp & Hb).
        exists (t :: u ++ [rp]), p. repeat split; auto. now apply ge_paren.
      * intros H. apply bind_ok in H as (g & _ & H). destruct g.
        { apply bind_ok in H as ([[l ts1] n1] & H1 & H).
          apply bind_ok in H as ([o ts2] & H2 & H).
          apply bind_ok in H as ([[r ts3] n2] & H3 & H).
          apply bind_ok in H as ([nd n3] & Hmk & [= <- <- <-]).
          apply var_rule_ok in H1 as (u & p & Hu & Hg & Hb).
          apply eat_ok in H2 as [-> Ho]. apply var_rule_ok in H3 as (v & q & -> & Hg2 & Hb2).
          exists (u ++ o :: v), (PT COp o [p; q]). repeat split.
          - rewrite Hu, <- app_assoc. reflexivity.
          - now apply ge_op.
          - rewrite <- Hmk. symmetry. apply mk_node_build. cbn [Grammar.build_list]. now rewrite Hb; cbn [bind]; rewrite Hb2. }
        { destruct (_ || _); [|discriminate].
          apply bool_var_rule_ok in H as (u & p & Hu & Hg & Hb).
          exists u, p. repeat split; auto. now apply ge_bool. }
  - intros a0 ts n a ts' n'. cbn [term_loop]. destruct ts as [|t ts]; [discriminate|]. cbn [cur bind tl].
    destruct (is_bool_op "AND" t) eqn:Ea.
    + apply is_bool_op_word in Ea. intros H u0 p0 n0 Hg0 Hb0.
      apply bind_ok in H as ([[e ts1] n1] & He & H).
      apply bind_ok in H as ([nd n2] & Hmk & H).
      apply IHe in He as (u & p & -> & Hg & Hb).
      destruct (IHtl _ _ _ _ _ _ H (u0 ++ t :: u) (PT CBoolOp t [p0; p]) n0) as (v & q & -> & Hq & Hbq).
      * now apply gt_and.
      * rewrite <- Hmk. symmetry. apply mk_node_build. cbn [Grammar.build_list]. now rewrite Hb0; cbn [bind]; rewrite Hb.
      * exists (t :: u ++ v), q. repeat split; auto.
        { cbn. now rewrite <- app_assoc. }
        { now rewrite <- app_assoc in Hq. }
    + intros [= <- <- <-] u0 p0 n0 Hg0 Hb0. exists [], p0. rewrite app_nil_r. auto.
  - intros ts n a ts' n'. cbn [term_rule]. intros H.
    apply bind_ok in H as ([[e ts1] n1] & He & H).
    apply IHe in He as (u & p & -> & Hg & Hb).
    destruct (IHtl _ _ _ _ _ _ H u p n) as (v & q & -> & Hq & Hbq); auto.
    { now apply gt_exp. }
    exists (u ++ v), q. rewrite <- app_assoc. auto.
  - intros a0 ts n a ts' n'. cbn [policy_loop]. destruct ts as [|t ts]; [discriminate|]. cbn [cur bind tl].
    destruct (is_bool_op "OR" t) eqn:Ea.
    + apply is_bool_op_word in Ea. intros H u0 p0 n0 Hg0 Hb0.
      apply bind_ok in H as ([[e ts1] n1] & He & H).
      apply bind_ok in H as ([nd n2] & Hmk & H).
      apply IHt in He as (u & p & -> & Hg & Hb).
      destruct (IHpl _ _ _ _ _ _ H (u0 ++ t :: u) (PT CBoolOp t [p0; p]) n0) as (v & q & -> & Hq & Hbq).
      * now apply gp_or.
      * rewrite <- Hmk. symmetry. apply mk_node_build. cbn [Grammar.build_list]. now rewrite Hb0; cbn [bind]; rewrite Hb.
      * exists (t :: u ++ v), q. repeat split; auto.
        { cbn. now rewrite <- app_assoc. }
        { now rewrite <- app_assoc in Hq. }
    + intros [= <- <- <-] u0 p0 n0 Hg0 Hb0. exists [], p0. rewrite app_nil_r. auto.
  - intros ts n a ts' n'. cbn [policy_rule]. intros H.
    apply bind_ok in H as ([[e ts1] n1] & He & H).
    apply IHt in He as (u & p & -> & Hg & Hb).
    destruct (IHpl _ _ _ _ _ _ H u p n) as (v & q & -> & Hq & Hbq); auto.
    { now apply gp_term. }
    exists (u ++ v), q. rewrite <- app_assoc. auto.
Qed.

(** ** Completeness *)

(** What may follow an expression: not an operator. *)
Definition follow (rest : list token) : Prop :=
  match rest with t :: _ => t_type t <> OP | [] => False end.

Definition follow_and (rest : list token) : Prop :=
  match rest with t :: _ => t_type t <> OP /\ ~ is_word BOOL_OP "AND" t | [] => False end.
Definition follow_or (rest : list token) : Prop :=
  match rest with
  | t :: _ => t_type t <> OP /\ ~ is_word BOOL_OP "AND" t /\ ~ is_word BOOL_OP "OR" t
  | [] => False end.

Lemma bool_op_false w t : ~ is_word BOOL_OP w t -> is_bool_op w t = false.
Proof. intros H. destruct (is_bool_op w t) eqn:E; auto. apply is_bool_op_word in E. tauto. Qed.

Lemma starts_op_lset t ts : t_type t = LSET -> starts_op (t :: ts) = Ok true.
Proof. intros E. unfold starts_op. cbn. now rewrite E. Qed.

Lemma g_boolvar_head u p : g_boolvar u p -> exists t, u = [t] /\ (t_type t = BOOL \/ is_att t = true).
Proof. destruct 1 as [t E|u p H]; [eauto|]. apply g_att_head in H as (t & -> & H). eauto. Qed.

Lemma is_att_cases t : is_att t = true ->
  ttype_eqb (t_type t) NOT_OP = false /\ ttype_eqb (t_type t) LPARN = false /\
  ttype_eqb (t_type t) LSET = false /\ ttype_eqb (t_type t) BOOL = false.
Proof. unfold is_att. destruct (t_type t); cbn; try discriminate; auto. Qed.

(** Every derivation is followed, given enough fuel, by the parser.  Loops are
    entered with the node built so far. *)
Lemma rules_complete :
  (forall u p, g_exp u p -> exists f0, forall f rest n, (f0 <= f)%nat -> follow rest ->
     exp_rule U f (u ++ rest) n = lift (build p n) rest) /\
  (forall u p, g_term u p -> exists f0 d, forall f rest n, (f0 <= f)%nat -> follow rest ->
     term_rule U (d + f) (u ++ rest) n = ('(a, n') <- build p n ;; term_loop U f a rest n')) /\
  (forall u p, g_policy u p -> exists f0 d, forall f rest n, (f0 <= f)%nat -> follow_and rest ->
     policy_rule U (d + f) (u ++ rest) n = ('(a, n') <- build p n ;; policy_loop U f a rest n')).
Proof.
  assert (ParenRun : forall u p, (exists f0 d, forall f rest n, (f0 <= f)%nat -> follow_and rest ->
     policy_rule U (d + f) (u ++ rest) n = ('(a, n') <- build p n ;; policy_loop U f a rest n')) ->
     exists f0, forall f rp rest n, (f0 <= f)%nat -> t_type rp = RPARN ->
     ('(s, ts2, n1) <- policy_rule U f ((u ++ [rp]) ++ rest) n ;;
      '(_, ts3) <- eat RPARN ts2 ;; Ok (s, ts3, n1)) = lift (build p n) rest).
  { intros u p (f0 & d & H). exists (d + S f0)%nat. intros f rp rest n Hf Hr.
    replace f with (d + (f - d))%nat by lia.
    assert (Hfo : follow_and (rp :: rest)).
    { cbn. rewrite Hr. split; [discriminate|]. unfold is_word. rewrite Hr. intros [? _]; discriminate. }
    rewrite <- app_assoc. cbn [app]. rewrite H by (auto; lia). unfold lift.
    destruct (build p n) as [[a n']|]; cbn [bind]; auto.
    destruct (f - d)%nat as [|k] eqn:Ek; [lia|]. cbn [policy_loop cur bind].
    assert (is_bool_op "OR" rp = false) as ->.
    { apply bool_op_false. unfold is_word. rewrite Hr. intros [? _]; discriminate. }
    cbn [bind]. rewrite eat_hit by auto. reflexivity. }
  assert (term_run : forall u p f0 d,
     (forall f rest n, (f0 <= f)%nat -> follow rest ->
       term_rule U (d + f) (u ++ rest) n = ('(a, n') <- build p n ;; term_loop U f a rest n')) ->
     forall f rest n, (S (d + f0) <= f)%nat -> follow_and rest ->
     term_rule U f (u ++ rest) n = lift (build p n) rest).
  { intros u p f0 d H f rest n Hf Hfo. replace f with (d + (f - d))%nat by lia.
    rewrite H; [|lia|destruct rest; cbn in *; tauto].
    unfold lift. destruct (build p n) as [[a1 n1]|]; cbn [bind]; auto.
    destruct rest as [|t rest]; [contradiction|]. cbn in Hfo.
    destruct (f - d)%nat as [|k] eqn:E; [lia|]. cbn [term_loop cur bind].
    now rewrite bool_op_false by tauto. }
  apply g_mind.
  - intros u l o v r Hu Ho Hv. exists 1%nat. intros f rest n Hf _.
    destruct f as [|f]; [lia|]. rewrite <- app_assoc. cbn [app].
    assert (Hcur : exists t ts, u ++ o :: v ++ rest = t :: ts /\
       ttype_eqb (t_type t) NOT_OP = false /\ ttype_eqb (t_type t) LPARN = false /\
       starts_op (t :: ts) = Ok true).
    { destruct Hu as [u l H|u l H|u l H].
      - apply g_atomic_head in H as (t & -> & H). exists t, (o :: v ++ rest).
        repeat split; try (apply is_atomic_type_neq; auto; reflexivity).
        unfold starts_op. cbn [cur bind peek].
        rewrite (is_atomic_type_neq t LSET) by auto. cbn [bind].
        unfold is_const. rewrite H, Ho. cbn. now rewrite orb_true_r.
      - apply g_set_head in H as (t & w & -> & H). exists t, (w ++ o :: v ++ rest).
        rewrite H. repeat split. now apply starts_op_lset.
      - apply g_att_head in H as (t & -> & H). exists t, (o :: v ++ rest).
        repeat split; try (apply is_att_type_neq; auto; reflexivity).
        unfold starts_op. cbn [cur bind peek].
        rewrite (is_att_type_neq t LSET) by auto. cbn [bind]. now rewrite H, Ho. }
    destruct Hcur as (t & ts & E & E1 & E2 & E3). cbn [exp_rule]. rewrite E at 1.
    cbn [cur bind]. rewrite E1, E2. rewrite E at 1. rewrite E3. cbn [bind].
    rewrite (var_rule_run _ _ _ _ Hu). unfold lift at 1. unfold lift.
    rewrite build_unfold. cbn [Grammar.build_list].
    destruct (build l n) as [[a1 n1]|]; cbn [bind]; auto.
    rewrite eat_hit by auto. cbn [bind].
    rewrite (var_rule_run _ _ _ _ Hv). unfold lift.
    destruct (build r n1) as [[a2 n2]|]; cbn [bind]; auto.
  - intros u b Hb. exists 1%nat. intros f rest n Hf Hfo. destruct f as [|f]; [lia|].
    pose proof (g_boolvar_head _ _ Hb) as (t & -> & Ht). cbn [app].
    assert (Hc : ttype_eqb (t_type t) NOT_OP = false /\ ttype_eqb (t_type t) LPARN = false /\
                 ttype_eqb (t_type t) LSET = false).
    { destruct Ht as [->|Ht]; [auto|]. apply is_att_cases in Ht. tauto. }
    destruct Hc as (E1 & E2 & E3). cbn [exp_rule cur bind]. rewrite E1, E2.
    unfold starts_op. cbn [cur bind]. rewrite E3.
    destruct rest as [|t2 rest]; [contradiction|]. cbn [peek bind]. cbn in Hfo.
    apply ttype_eqb_neq in Hfo. rewrite Hfo. cbn [andb].
    assert (ttype_eqb (t_type t) BOOL || is_att t = true) as ->.
    { destruct Ht as [->| ->]; [reflexivity|apply orb_true_r]. }
    apply (bool_var_rule_run _ _ (t2 :: rest) n Hb).
  - intros t u b Ht Hb. exists 1%nat. intros f rest n Hf _. destruct f as [|f]; [lia|].
    cbn [app exp_rule cur bind]. rewrite Ht. cbn [ttype_eqb ttype_val tl]. cbv zeta.
    pose proof (g_boolvar_head _ _ Hb) as (t1 & -> & Ht1). cbn [app cur bind].
    assert (ttype_eqb (t_type t1) LPARN = false) as ->.
    { destruct Ht1 as [->|H]; [reflexivity|]. apply is_att_cases in H. tauto. }
    change (t1 :: rest) with ([t1] ++ rest). rewrite (bool_var_rule_run _ _ rest n Hb).
    unfold lift. rewrite build_unfold. cbn [Grammar.build_list].
    destruct (build b n) as [[]|]; cbn [bind]; auto.
  - intros lp u p rp Hlp Hp IH Hrp. destruct (ParenRun _ _ IH) as (f0 & HP).
    exists (S f0). intros f rest n Hf _. destruct f as [|f]; [lia|].
    cbn [app exp_rule cur bind tl]. rewrite Hlp. cbn [ttype_eqb ttype_val].
    apply HP; auto. lia.
  - intros t lp u p rp Ht Hlp Hp IH Hrp. destruct (ParenRun _ _ IH) as (f0 & HP).
    exists (S f0). intros f rest n Hf _. destruct f as [|f]; [lia|].
    cbn [app exp_rule cur bind tl]. rewrite Ht. cbn [ttype_eqb ttype_val tl]. cbv zeta.
    cbn [cur bind]. rewrite Hlp. cbn [ttype_eqb ttype_val tl].
    rewrite HP by (auto; lia). unfold lift. rewrite build_unfold. cbn [Grammar.build_list].
    destruct (build p n) as [[]|]; cbn [bind]; auto.
  - intros u e He (f0 & H). exists f0, 1%nat. intros f rest n Hf Hfo.
    cbn [Nat.add term_rule]. rewrite H by auto. unfold lift.
    destruct (build e n) as [[]|]; reflexivity.
  - intros u l a v r Hl (f1 & d & H1) Ha Hr (f2 & H2).
    exists (f1 + f2)%nat, (S d). intros f rest n Hf Hfo.
    rewrite <- app_assoc. cbn [app].
    replace (S d + f)%nat with (d + S f)%nat by lia.
    rewrite H1; [|lia|cbn; destruct Ha as [-> _]; discriminate].
    rewrite build_unfold. cbn [Grammar.build_list].
    destruct (build l n) as [[a1 n1]|]; cbn [bind]; auto.
    cbn [term_loop cur bind tl]. apply is_bool_op_word in Ha. rewrite Ha.
    rewrite H2 by (auto; lia). unfold lift.
    destruct (build r n1) as [[a2 n2]|]; cbn [bind]; auto.
  - intros u e He (f0 & d & H). exists (S (d + f0)), 1%nat. intros f rest n Hf Hfo.
    cbn [Nat.add policy_rule]. rewrite (term_run u e f0 d H) by (auto; lia). unfold lift.
    destruct (build e n) as [[a1 n1]|]; reflexivity.
  - intros u l a v r Hl (f1 & d & H1) Ha Hr (f2 & d2 & H2).
    exists (f1 + S (d2 + f2))%nat, (S d). intros f rest n Hf Hfo.
    rewrite <- app_assoc. cbn [app].
    replace (S d + f)%nat with (d + S f)%nat by lia.
    rewrite H1; [|lia|cbn; unfold is_word in *; destruct Ha as [-> ->]; split; [discriminate|];
                      intros [_ ?]; discriminate].
    rewrite build_unfold. cbn [Grammar.build_list].
    destruct (build l n) as [[a1 n1]|]; cbn [bind]; auto.
    cbn [policy_loop cur bind tl]. apply is_bool_op_word in Ha. rewrite Ha.
    rewrite (term_run v r f2 d2 H2) by (auto; lia). unfold lift.
    destruct (build r n1) as [[a2 n2]|]; cbn [bind]; auto.
Qed.

Lemma policy_complete u p :
  g_policy u p -> exists f0, forall f rest n, (f0 <= f)%nat -> follow_or rest ->
  policy_rule U f (u ++ rest) n = lift (build p n) rest.
Proof.
  intros Hg. destruct rules_complete as (_ & _ & H). apply H in Hg as (f0 & d & Hp).
  exists (S (d + f0)). intros f rest n Hf Hfo.
  replace f with (d + (f - d))%nat by lia. rewrite Hp; [|lia|destruct rest; cbn in *; tauto].
  unfold lift. destruct (build p n) as [[a1 n1]|]; cbn [bind]; auto.
  destruct rest as [|t rest]; [contradiction|]. cbn in Hfo.
  destruct (f - d)%nat as [|k] eqn:E; [lia|]. cbn [policy_loop cur bind].
  now rewrite bool_op_false by tauto.
Qed.

(** ** Fuel *)

Lemma g_nonempty :
  (forall u p, g_exp u p -> u <> []) /\ (forall u p, g_term u p -> u <> []) /\
  (forall u p, g_policy u p -> u <> []).
Proof.
  apply g_mind; intros; try discriminate; auto; try (destruct u; discriminate).
  apply g_boolvar_head in H as (t & -> & _). discriminate.
Qed.

Ltac ne H := let G := fresh in pose proof H as G; apply g_nonempty in G.

Lemma exp_rule_shorter f ts n a ts' n' :
  exp_rule U f ts n = Ok (a, ts', n') -> (List.length ts' < List.length ts)%nat.
Proof.
  intros H. apply rules_sound in H as (u & p & -> & Hg & _). ne Hg.
  rewrite app_length. destruct u; [congruence|]. cbn. lia.
Qed.
Lemma term_rule_shorter f ts n a ts' n' :
  term_rule U f ts n = Ok (a, ts', n') -> (List.length ts' < List.length ts)%nat.
Proof.
  intros H. apply rules_sound in H as (u & p & -> & Hg & _). ne Hg.
  rewrite app_length. destruct u; [congruence|]. cbn. lia.
Qed.

Lemma bind_err {A B} (m : res A) (f : A -> res B) e :
  bind m f = Err e -> m = Err e \/ exists a, m = Ok a /\ f a = Err e.
Proof. destruct m; cbn; intros H; [right; eauto|left; congruence]. Qed.

Lemma init_result_err c t e : init_result U c t = Err e -> e = EAttribute.
Proof. destruct c; cbn; try discriminate. destruct (t_val t); congruence. Qed.

Lemma mk_node_err c t k n e : mk_node U c t k n = Err e -> e = EAttribute.
Proof.
  unfold mk_node. intros H. apply bind_err in H as [H|(a & _ & H)]; [|discriminate].
  now apply init_result_err in H.
Qed.

Lemma set_loop_fuel fuel ts n : (List.length ts < fuel)%nat -> set_loop U fuel ts n <> Err EFuel.
Proof.
  revert ts n; induction fuel as [|fuel IH]; intros ts n Hf; [lia|]. cbn [set_loop].
  destruct ts as [|t ts]; [discriminate|]. cbn [cur bind].
  destruct (ttype_eqb (t_type t) RSET); [discriminate|].
  unfold eat. cbn [cur bind]. destruct (ttype_eqb (t_type t) COMMA); [|discriminate]. cbn [bind tl].
  destruct (atomic_rule U ts n) as [[[nd ts2] n1]|e] eqn:Ea; cbn [bind].
  - apply atomic_rule_ok in Ea as (u & p & -> & Hu & _). apply g_atomic_head in Hu as (t0 & -> & _).
    specialize (IH ts2 n1). cbn in Hf.
    destruct (set_loop U fuel ts2 n1) as [[[]]|e]; cbn [bind]; [discriminate|].
    intros [= ->]. apply IH; auto. lia.
  - intros [= ->]. unfold atomic_rule in Ea. destruct ts as [|t0 ts]; [discriminate|].
    cbn [cur bind] in Ea. destruct (t_type t0); cbn in Ea; discriminate.
Qed.

Lemma att_name_rule_fuel ts n : att_name_rule U ts n <> Err EFuel.
Proof.
  unfold att_name_rule. destruct ts as [|t ts]; [discriminate|]. cbn [cur bind].
  destruct (t_type t); cbn; discriminate.
Qed.
Lemma atomic_rule_fuel ts n : atomic_rule U ts n <> Err EFuel.
Proof.
  unfold atomic_rule. destruct ts as [|t ts]; [discriminate|]. cbn [cur bind].
  destruct (t_type t); cbn; discriminate.
Qed.
Lemma mk_node_fuel c t k n : mk_node U c t k n <> Err EFuel.
Proof. intros H. apply mk_node_err in H. discriminate. Qed.
Lemma eat_fuel ty ts : eat ty ts <> Err EFuel.
Proof.
  unfold eat. destruct ts; [discriminate|]. cbn. destruct (ttype_eqb _ _); discriminate.
Qed.
Lemma bool_var_rule_fuel ts n : bool_var_rule U ts n <> Err EFuel.
Proof.
  unfold bool_var_rule. destruct ts as [|t ts]; [discriminate|]. cbn [cur bind].
  destruct (ttype_eqb (t_type t) BOOL); [|apply att_name_rule_fuel].
  destruct (mk_node U CBoolVal t [] n) as [[]|e] eqn:E; cbn; [discriminate|].
  intros [= ->]. now apply mk_node_fuel in E.
Qed.
Lemma set_rule_fuel ts n : set_rule U ts n <> Err EFuel.
Proof.
  unfold set_rule. intros H.
  apply bind_err in H as [H|([lb ts1] & H1 & H)]; [now apply eat_fuel in H|].
  destruct ts1 as [|t ts1]; [discriminate|]. cbn [cur bind] in H.
  apply bind_err in H as [H|([[nds ts2] n1] & H2 & H)].
  - destruct (ttype_eqb (t_type t) RSET); [discriminate|].
    apply bind_err in H as [H|([[nd ts3] n2] & H2 & H)]; [now apply atomic_rule_fuel in H|].
    apply bind_err in H as [H|([[nds ts4] n3] & H3 & H)]; [|discriminate].
    apply set_loop_fuel in H; auto. lia.
  - apply bind_err in H as [H|([rb ts3] & H3 & H)]; [now apply eat_fuel in H|].
    apply bind_err in H as [H|([nd n2] & H4 & H)]; [now apply mk_node_fuel in H|discriminate].
Qed.
Lemma var_rule_fuel ts n : var_rule U ts n <> Err EFuel.
Proof.
  unfold var_rule, const_rule. destruct ts as [|t ts]; [discriminate|]. cbn [cur bind].
  destruct (is_att t); [apply att_name_rule_fuel|].
  destruct (is_const t); [|discriminate].
  destruct (is_atomic t); [apply atomic_rule_fuel|apply set_rule_fuel].
Qed.
Lemma starts_op_fuel ts : starts_op ts <> Err EFuel.
Proof.
  unfold starts_op. destruct ts as [|t ts]; [discriminate|]. cbn [cur bind].
  destruct (ttype_eqb _ _); [discriminate|]. destruct ts; discriminate.
Qed.

Lemma rules_fuel fuel :
  (forall ts n, (4 * List.length ts + 1 <= fuel)%nat -> exp_rule U fuel ts n <> Err EFuel) /\
  (forall a ts n, (4 * List.length ts + 1 <= fuel)%nat -> term_loop U fuel a ts n <> Err EFuel) /\
  (forall ts n, (4 * List.length ts + 2 <= fuel)%nat -> term_rule U fuel ts n <> Err EFuel) /\
  (forall a ts n, (4 * List.length ts + 2 <= fuel)%nat -> policy_loop U fuel a ts n <> Err EFuel) /\
  (forall ts n, (4 * List.length ts + 3 <= fuel)%nat -> policy_rule U fuel ts n <> Err EFuel).
Proof.
  induction fuel as [|fuel (IHe & IHtl & IHt & IHpl & IHp)].
  { repeat split; intros; lia. }
  assert (Paren : forall ts n, (4 * List.length ts + 3 <= fuel)%nat ->
    ('(s, ts2, n1) <- policy_rule U fuel ts n ;;
     '(_, ts3) <- eat RPARN ts2 ;; Ok (s, ts3, n1)) <> Err EFuel).
  { intros ts n Hf H. apply bind_err in H as [H|([[s ts2] n1] & H1 & H)]; [now apply IHp in H|].
    apply bind_err in H as [H|([s0 ts3] & H2 & H)]; [now apply eat_fuel in H|discriminate]. }
  repeat split.
  - intros ts n Hf. cbn [exp_rule]. destruct ts as [|t ts]; [discriminate|]. cbn [cur bind tl].
    cbn [List.length] in Hf.
    destruct (ttype_eqb (t_type t) NOT_OP).
    + cbv zeta. destruct ts as [|t1 ts]; [discriminate|]. cbn [cur bind tl]. intros H.
      cbn [List.length] in Hf.
      apply bind_err in H as [H|([[sub ts2] n1] & H1 & H)].
      * destruct (ttype_eqb (t_type t1) LPARN); [apply Paren in H; auto; lia|now apply bool_var_rule_fuel in H].
      * apply bind_err in H as [H|([nd n2] & H2 & H)]; [now apply mk_node_fuel in H|discriminate].
    + destruct (ttype_eqb (t_type t) LPARN); [apply Paren; lia|]. intros H.
      apply bind_err in H as [H|(g & H1 & H)]; [now apply starts_op_fuel in H|].
      destruct g.
      * apply bind_err in H as [H|([[l ts1] n1] & H2 & H)]; [now apply var_rule_fuel in H|].
        apply bind_err in H as [H|([o ts2] & H3 & H)]; [now apply eat_fuel in H|].
        apply bind_err in H as [H|([[r ts3] n2] & H4 & H)]; [now apply var_rule_fuel in H|].
        apply bind_err in H as [H|([nd n3] & H5 & H)]; [now apply mk_node_fuel in H|discriminate].
      * destruct (_ || _); [now apply bool_var_rule_fuel in H|discriminate].
  - intros a ts n Hf. cbn [term_loop]. destruct ts as [|t ts]; [discriminate|]. cbn [cur bind tl].
    cbn [List.length] in Hf.
    destruct (is_bool_op "AND" t); [|discriminate]. intros H.
    apply bind_err in H as [H|([[e ts1] n1] & H1 & H)]; [apply IHe in H; auto; lia|].
    apply bind_err in H as [H|([nd n2] & H2 & H)]; [now apply mk_node_fuel in H|].
    apply exp_rule_shorter in H1. apply IHtl in H; auto. lia.
  - intros ts n Hf. cbn [term_rule]. intros H.
    apply bind_err in H as [H|([[e ts1] n1] & H1 & H)]; [apply IHe in H; auto; lia|].
    apply exp_rule_shorter in H1. apply IHtl in H; auto. lia.
  - intros a ts n Hf. cbn [policy_loop]. destruct ts as [|t ts]; [discriminate|]. cbn [cur bind tl].
    cbn [List.length] in Hf.
    destruct (is_bool_op "OR" t); [|discriminate]. intros H.
    apply bind_err in H as [H|([[e ts1] n1] & H1 & H)]; [apply IHt in H; auto; lia|].
    apply bind_err in H as [H|([nd n2] & H2 & H)]; [now apply mk_node_fuel in H|].
    apply term_rule_shorter in H1. apply IHpl in H; auto. lia.
  - intros ts n Hf. cbn [policy_rule]. intros H.
    apply bind_err in H as [H|([[e ts1] n1] & H1 & H)]; [apply IHt in H; auto; lia|].
    apply term_rule_shorter in H1. apply IHpl in H; auto. lia.
Qed.

(** More fuel does not change a result. *)
Definition stable {A} (x y : res A) : Prop := x <> Err EFuel -> y = x.

Lemma stable_refl {A} (x : res A) : stable x x.
Proof. intros _. reflexivity. Qed.

Lemma stable_bind {A B} (x y : res A) (f g : A -> res B) :
  stable x y -> (forall a, stable (f a) (g a)) -> stable (bind x f) (bind y g).
Proof.
  intros H HS Hn. destruct x as [a|e].
  - rewrite H by discriminate. apply HS. exact Hn.
  - rewrite H; auto. intros [= ->]. now apply Hn.
Qed.

Lemma rules_stable f :
  (forall ts n, stable (exp_rule U f ts n) (exp_rule U (S f) ts n)) /\
  (forall a ts n, stable (term_loop U f a ts n) (term_loop U (S f) a ts n)) /\
  (forall ts n, stable (term_rule U f ts n) (term_rule U (S f) ts n)) /\
  (forall a ts n, stable (policy_loop U f a ts n) (policy_loop U (S f) a ts n)) /\
  (forall ts n, stable (policy_rule U f ts n) (policy_rule U (S f) ts n)).
Proof.
  induction f as [|f (IHe & IHtl & IHt & IHpl & IHp)].
  { repeat split; intros; intros H; now contradiction H. }
  assert (Paren : forall ts n, stable
    ('(s, ts2, n1) <- policy_rule U f ts n ;; '(_, ts3) <- eat RPARN ts2 ;; Ok (s, ts3, n1))
    ('(s, ts2, n1) <- policy_rule U (S f) ts n ;; '(_, ts3) <- eat RPARN ts2 ;; Ok (s, ts3, n1))).
  { intros ts n. apply stable_bind; [apply IHp|]. intros [[s ts2] n1]. apply stable_refl. }
  repeat split.
  - intros ts n. remember (S f) as g. rewrite Heqg at 1. cbn [exp_rule].
    apply stable_bind; [apply stable_refl|]. intros t.
    destruct (ttype_eqb (t_type t) NOT_OP).
    + cbv zeta. apply stable_bind; [apply stable_refl|]. intros t1.
      apply stable_bind; [|intros [[]]; apply stable_refl].
      destruct (ttype_eqb (t_type t1) LPARN); [apply Paren|apply stable_refl].
    + destruct (ttype_eqb (t_type t) LPARN); [apply Paren|apply stable_refl].
  - intros a ts n. remember (S f) as g. rewrite Heqg at 1. cbn [term_loop].
    apply stable_bind; [apply stable_refl|]. intros t. destruct (is_bool_op "AND" t); [|apply stable_refl].
    apply stable_bind; [apply IHe|]. intros [[e ts1] n1].
    apply stable_bind; [apply stable_refl|]. intros [nd n2]. apply IHtl.
  - intros ts n. remember (S f) as g. rewrite Heqg at 1. cbn [term_rule].
    apply stable_bind; [apply IHe|]. intros [[e ts1] n1]. apply IHtl.
  - intros a ts n. remember (S f) as g. rewrite Heqg at 1. cbn [policy_loop].
    apply stable_bind; [apply stable_refl|]. intros t. destruct (is_bool_op "OR" t); [|apply stable_refl].
    apply stable_bind; [apply IHt|]. intros [[e ts1] n1].
    apply stable_bind; [apply stable_refl|]. intros [nd n2]. apply IHpl.
  - intros ts n. remember (S f) as g. rewrite Heqg at 1. cbn [policy_rule].
    apply stable_bind; [apply IHt|]. intros [[e ts1] n1]. apply IHpl.
Qed.

Lemma policy_stable f g ts n :
  (f <= g)%nat -> policy_rule U f ts n <> Err EFuel -> policy_rule U g ts n = policy_rule U f ts n.
Proof.
  induction 1 as [|g Hle IH]; auto. intros H. rewrite <- IH by auto.
  apply rules_stable. now rewrite IH.
Qed.

(** The parser's own fuel is enough, so it agrees with any larger amount. *)
Lemma policy_rule_parse ts r n f :
  (parse_fuel (ts :: r) <= f)%nat -> policy_rule U f r n = policy_rule U (parse_fuel (ts :: r)) r n.
Proof.
  intros H. apply policy_stable; auto. apply rules_fuel.
  unfold parse_fuel. cbn [List.length]. lia.
Qed.

(** ** The parser *)

Theorem parse_derives ts p last :
  derives ts p -> parse U ts last = build p last.
Proof.
  intros (s & u & e & tr & -> & Hs & Hg & He). unfold parse.
  rewrite eat_hit by auto. cbn [bind].
  destruct (policy_complete _ _ Hg) as (f0 & Hc).
  rewrite <- (policy_rule_parse s (u ++ e :: tr) last (f0 + parse_fuel (s :: u ++ e :: tr))) by lia.
  rewrite Hc; [|lia|cbn; rewrite He; unfold is_word; rewrite He; split; [discriminate|split; intros [? _]; discriminate]].
  unfold lift. destruct (build p last) as [[a n']|]; cbn [bind]; auto.
  rewrite eat_hit by auto. reflexivity.
Qed.

Theorem parse_sound ts last a n' :
  parse U ts last = Ok (a, n') -> exists p, derives ts p /\ build p last = Ok (a, n').
Proof.
  unfold parse. destruct ts as [|s ts]; [discriminate|]. intros H.
  apply bind_ok in H as ([s' ts1] & Hs & H). apply eat_ok in Hs as [[= <- <-] Hs].
  apply bind_ok in H as ([[nd ts2] n1] & Hp & H).
  apply bind_ok in H as ([e ts3] & He & [= <- <-]). apply eat_ok in He as [-> He].
  apply rules_sound in Hp as (u & p & -> & Hg & Hb). exists p. split; auto.
  exists s, u, e, ts3. auto.
Qed.

Theorem parse_iff ts last a n' :
  parse U ts last = Ok (a, n') <-> exists p, derives ts p /\ build p last = Ok (a, n').
Proof.
  split; [apply parse_sound|]. intros (p & Hd & Hb). now rewrite (parse_derives _ _ _ Hd).
Qed.

End WithUnicode.
