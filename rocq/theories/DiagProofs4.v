(** * DiagProofs4: what may come next in every state *)

From Coq Require Import NArith ZArith List Bool Lia String.
From Verif Require Import PyBase PyNum Lexer LexSpec LexProps Values Ast Parser Grammar ParseProofs ParseProofs2 ParseProps ParsePos AttCert Errors Diag DiagProofs DiagSpec DiagProofs2 DiagProofs3.
Import ListNotations.
Open Scope Z_scope.

Definition odd_token : token := Tok START 0 TNone.
Lemma odd_refused u k : ~ allowed u k odd_token.
Proof.
  unfold odd_token, allowed, attribute, constant, joins, is_word.
  destruct k; cbn; intros H; repeat match goal with H : _ \/ _ |- _ => destruct H | H : _ /\ _ |- _ => destruct H end; try discriminate; auto.
Qed.
Lemma odd_no_op k : no_op k odd_token.
Proof. destruct k; cbn; auto; discriminate. Qed.

Lemma same_rule k k' : rule_of k = rule_of k' ->
  match k with WStart | WOperator | WClose _ => 0 | WNegated => 1 | WElement _ => 2 | WComma => 3 | WOperand => 4 | WFinish => 5 end =
  match k' with WStart | WOperator | WClose _ => 0 | WNegated => 1 | WElement _ => 2 | WComma => 3 | WOperand => 4 | WFinish => 5 end.
Proof. destruct k, k'; intros H; try reflexivity; vm_compute in H; discriminate. Qed.
Lemma odd_same k k' : say k odd_token = say k' odd_token -> forall t, say k t = say k' t.
Proof.
  intros H t. assert (R : rule_of k = rule_of k') by (injection H; auto).
  assert (W : wording k (type_name START) 0 = wording k' (type_name START) 0) by (injection H; auto).
  clear H. apply same_rule in R.
  destruct k, k'; try discriminate R; try reflexivity;
    try (apply (f_equal (firstn 24)) in W; lazy in W; discriminate W).
  unfold say. cbn [rule_of wording] in W |- *. now rewrite W.
Qed.

Section WithUnicode.
Variable U : unicode.

Lemma waits_same u k k' : Forall bool_ok u -> waits u k -> waits u k' -> forall t, say k t = say k' t.
Proof.
  intros Hb H H'. apply odd_same.
  pose proof (waits_run U u k odd_token odd_token [] 0 H Hb (odd_refused u k) (odd_no_op k)) as E.
  rewrite (waits_run U u k' odd_token odd_token [] 0 H' Hb (odd_refused u k') (odd_no_op k')) in E. congruence.
Qed.

Lemma nth_at {A} (a b c d : list A) x y : a ++ x :: b = c ++ y :: d -> (List.length a < List.length c)%nat ->
  nth_error (a ++ x :: b) (List.length a) = Some x /\ nth_error (a ++ x :: b) (List.length c) = Some y.
Proof. intros E L. split; [apply nth_mid|]. rewrite E. apply nth_mid. Qed.

Lemma waits_nonempty u k : waits u k -> exists s v, u = s :: v /\ t_type s = START.
Proof. destruct 1; eauto. Qed.
Lemma culprit_nonempty ts u t : file ts -> culprit ts u t -> u <> [].
Proof.
  intros (s & body & e & -> & Hs & _) C ->. destruct C as [y v E Hu _ _|v E _ N _ _].
  - destruct Hu as (? & ? & ? & _). discriminate.
  - cbn in E. injection E as <- _. apply N. cbn. apply begins_viable; auto. exists [a_true], (PT CBoolVal a_true []). apply a_policy.
Qed.

Lemma message_found ts last e : file ts -> d_parse U ts last = DSyn e ->
  exists u t k, culprit ts u t /\ waits u k /\ e = say k t.
Proof.
  intros Hf H. assert (P : parse U ts last = Err (EParser (pe_pos e))) by (rewrite <- forget_parse, H; reflexivity).
  destruct (culprit_found U ts last _ Hf P) as (u' & t' & C & Ep). pose proof (culprit_nonempty _ _ _ Hf C) as Ne.
  pose proof Hf as (s & body & e1 & Ets & Hs & _ & _ & _ & Hpos).
  rewrite Ets in H. apply parse_syn in H as (u & t & r & k & E & Hw & ->); auto. rewrite <- Ets in E.
  exists u, t, k. cbn [pe_pos say] in Ep. pose proof (waits_nonempty _ _ Hw) as (s' & v & Eu & _).
  assert (exists r', ts = u' ++ t' :: r') as (r' & E') by (destruct C; eauto).
  assert (L : List.length u = List.length u').
  { rewrite E in E'. destruct (Nat.lt_trichotomy (List.length u) (List.length u')) as [L|[L|L]]; auto; exfalso.
    - destruct (nth_at _ _ _ _ _ _ E' L) as [A B]. rewrite <- E in A, B.
      specialize (Hpos (List.length u) (List.length u') t t'). rewrite Eu in Hpos, L. cbn [List.length] in Hpos, L. rewrite Eu in A. cbn [List.length] in A.
      specialize (Hpos ltac:(lia) A B). lia.
    - symmetry in E'. destruct (nth_at _ _ _ _ _ _ E' L) as [A B]. rewrite E', <- E in A, B.
      specialize (Hpos (List.length u') (List.length u) t' t). destruct u' as [|x u']; [contradiction|]. cbn [List.length] in *.
      specialize (Hpos ltac:(lia) A B). lia. }
  rewrite E in E'. destruct (same_length _ _ _ _ E' L) as [-> E2]. injection E2 as -> _. auto.
Qed.

(** ** What may come next *)

Definition a_comma_t : token := Tok COMMA 0 TNone.
Definition a_rset : token := Tok RSET 0 TNone.
Lemma const_atomic t : constant t -> exists q, g_atomic [t] q.
Proof.
  intros [H|[H|[H|[H|[]]]]]; symmetry in H; eexists;
    first [now apply gc_int|now apply gc_float|now apply gc_string|now apply gc_null].
Qed.
Lemma attribute_g t : attribute t -> exists q, g_att [t] q.
Proof.
  intros [H|[H|[H|[H|[H|[]]]]]]; symmetry in H; eexists;
    first [now apply ga_user|now apply ga_object|now apply ga_env|now apply ga_admin|now apply ga_connect].
Qed.
Lemma set_allowed s k u t : in_set s k -> allowed u k t -> exists w q, g_set (s ++ t :: w) q.
Proof.
  destruct 1 as [lb Hl|lb v l c Hl Hv Hc|lb v l Hl Hv]; cbn [allowed]; intros A.
  - destruct A as [A|[_ A]].
    + apply const_atomic in A as (q & A). exists [a_rset]. eexists. apply (gs_some lb [t] [q] a_rset); auto. now constructor.
    + exists []. eexists. now apply gs_empty.
  - destruct A as [A|[A _]]; [|discriminate]. apply const_atomic in A as (q & A). exists [a_rset].
    assert (exists m, g_setval (v ++ c :: [t]) m) as (m & G).
    { apply setval_tail in Hv as (v1 & w & a & m & -> & -> & Ha & Ht). eexists.
      apply setval_tail. exists v1, (w ++ c :: [t]), a, (m ++ [q]). rewrite <- app_assoc. repeat split; auto.
      clear Ha. induction Ht as [|c1 u1 b v2 m2 Hc1 Hb Ht IH].
      - apply (gtl_cons c [t] q [] []); auto. constructor.
      - cbn [app]. rewrite <- app_assoc. now constructor. }
    eexists. cbn [app]. rewrite <- app_assoc. cbn [app].
    replace (v ++ c :: t :: [a_rset]) with ((v ++ c :: [t]) ++ [a_rset]) by now rewrite <- app_assoc.
    eapply gs_some; eauto.
  - assert (Hnull : g_atomic [a_null] (PT CNull a_null [])) by now constructor.
    destruct A as [A|[A|[]]]; symmetry in A.
    + exists [a_null; a_rset].
      assert (exists m, g_setval (v ++ t :: [a_null]) m) as (m & G).
      { apply setval_tail in Hv as (v1 & w & a & m & -> & -> & Ha & Ht). eexists.
        apply setval_tail. exists v1, (w ++ t :: [a_null]), a, (m ++ [PT CNull a_null []]). rewrite <- app_assoc. repeat split; auto.
        clear Ha. induction Ht as [|c1 u1 b v2 m2 Hc1 Hb Ht IH].
        - apply (gtl_cons t [a_null] (PT CNull a_null []) [] []); auto. constructor.
        - cbn [app]. rewrite <- app_assoc. now constructor. }
      eexists. cbn [app].
      replace (v ++ t :: a_null :: [a_rset]) with ((v ++ t :: [a_null]) ++ [a_rset]) by now rewrite <- app_assoc.
      eapply gs_some; eauto.
    + exists []. eexists. cbn [app]. eapply gs_some; eauto.
Qed.

Lemma policy_and w q a v r : g_policy w q -> is_word BOOL_OP "AND" a -> g_exp v r -> exists q', g_policy (w ++ a :: v) q'.
Proof.
  intros [u e He|u l b x y Hl Hb Hx] Ha Hv.
  - eexists. apply gp_term. apply gt_and; eauto.
  - eexists. rewrite <- app_assoc. cbn [app]. apply gp_or; eauto. apply gt_and; eauto.
Qed.
Lemma policy_joins w q a : g_policy w q -> joins a -> exists q', g_policy (w ++ [a; a_true]) q'.
Proof.
  assert (T : g_exp [a_true] (PT CBoolVal a_true [])) by (apply ge_bool; now constructor).
  intros Hw [Ha|Ha].
  - eapply policy_and; eauto.
  - eexists. eapply (gp_or w q a [a_true]); eauto. apply gt_exp. exact T.
Qed.

(** Inside an expression, up to the operator after a dangling attribute. *)
Lemma inner_allowed x k t : inner x k -> allowed [] k t -> exists w q, g_exp (x ++ t :: w) q.
Proof.
  assert (T : g_boolvar [a_true] (PT CBoolVal a_true [])) by now constructor.
  intros [|nt Hnt|s k' Hs|s q Hs|l q o Hl Ho|l q o s k' Hl Ho Hs|p lp w q Hp Hw] A.
  - cbn [allowed In] in A. destruct A as [[A|[A|[A|[A|[]]]]]|[A|A]]; try symmetry in A.
    + exists [a_true]. eexists. cbn [app]. eapply ge_not_bool; eauto.
    + exists [a_true; a_rparn]. eexists. now apply (ge_paren t [a_true] _ a_rparn A a_policy).
    + exists [a_rset; an_op; a_null]. eexists. eapply (ge_op [t; a_rset] _ an_op [a_null]); [|reflexivity|exact a_var].
      apply gv_set. now apply gs_empty.
    + exists []. eexists. apply ge_bool. now constructor.
    + apply attribute_g in A as (q & A). exists [], q. apply ge_bool. now constructor.
    + apply const_atomic in A as (q & A). exists [an_op; a_null]. eexists. eapply (ge_op [t] _ an_op [a_null]); [|reflexivity|exact a_var].
      apply gv_atomic. exact A.
  - cbn [allowed In] in A. destruct A as [[A|[A|[]]]|A]; try symmetry in A.
    + exists [a_true; a_rparn]. eexists. cbn [app]. now apply (ge_not_paren nt t [a_true] _ a_rparn Hnt A a_policy).
    + exists []. eexists. cbn [app]. apply ge_not_bool; auto. now constructor.
    + apply attribute_g in A as (q & A). exists []. eexists. cbn [app]. apply ge_not_bool; auto. apply gb_att. eauto.
  - destruct (set_allowed _ _ _ _ Hs A) as (w & q & G). exists (w ++ [an_op; a_null]). eexists.
    replace (s ++ t :: w ++ [an_op; a_null]) with ((s ++ t :: w) ++ an_op :: [a_null]) by now rewrite <- app_assoc.
    eapply ge_op; [|reflexivity|exact a_var]. apply gv_set. exact G.
  - cbn [allowed] in A. exists [a_null]. eexists. eapply ge_op; [|exact A|exact a_var]. apply gv_set. exact Hs.
  - cbn [allowed] in A. destruct A as [A|[A|A]].
    + exists [a_rset]. eexists. rewrite <- app_assoc. cbn [app]. eapply ge_op; eauto. apply gv_set. now apply gs_empty.
    + apply attribute_g in A as (q2 & A). exists []. eexists. rewrite <- app_assoc. cbn [app]. eapply ge_op; eauto. apply gv_att. eauto.
    + apply const_atomic in A as (q2 & A). exists []. eexists. rewrite <- app_assoc. cbn [app]. eapply ge_op; eauto. apply gv_atomic. eauto.
  - destruct (set_allowed _ _ _ _ Hs A) as (w & q2 & G). exists w. eexists. rewrite <- app_assoc. cbn [app]. eapply ge_op; eauto. apply gv_set. exact G.
  - cbn [allowed] in A.
    assert (P : forall w2 q2 rp, g_policy w2 q2 -> t_type rp = RPARN -> exists q3, g_exp (p ++ w2 ++ [rp]) q3).
    { intros w2 q2 rp Hw2 Hr. destruct Hp as [lp Hl|nt lp Hnt Hl]; cbn [app]; eexists; [eapply ge_paren|eapply ge_not_paren]; eauto. }
    destruct A as [A|[A|[_ (u0 & a & E & _)]]].
    + destruct (P w q t Hw A) as (q3 & G). exists [], q3. rewrite <- app_assoc. exact G.
    + destruct (policy_joins w q t Hw A) as (q2 & Hw2). destruct (P _ _ a_rparn Hw2 eq_refl) as (q3 & G). exists [a_true; a_rparn], q3.
      rewrite <- app_assoc in G |- *. exact G.
    + destruct u0; discriminate.
Qed.

Lemma dangling_viable u o : dangling u -> t_type o = OP -> viable (u ++ [o]).
Proof.
  intros (u0 & a & -> & (s & v & -> & Hs & Hv) & Ha) Ho. cbn [app]. rewrite <- app_assoc. cbn [app]. apply begins_viable; auto.
  apply attribute_g in Ha as (q & Ha).
  destruct pre_extends as (_ & _ & P).
  destruct (P v Hv [a; o; a_null] _ (ge_op [a] q o [a_null] _ (gv_att _ _ Ha) Ho a_var)) as (w & q2 & G).
  exists (a_null :: w), q2. rewrite <- app_assoc in G |- *. exact G.
Qed.

Lemma allowed_viable u k t : waits u k -> allowed u k t -> viable (u ++ [t]).
Proof.
  intros [s v x k' Hs Hv Hx|s w q Hs Hw] A.
  - assert (D : allowed [] k' t \/ (t_type t = OP /\ dangling (s :: v ++ x))) by (destruct k'; cbn [allowed] in *; tauto).
    destruct D as [D|[Ho D]]; [|now apply dangling_viable].
    destruct (inner_allowed _ _ _ Hx D) as (w & q & G). cbn [app]. rewrite <- app_assoc. apply begins_viable; auto.
    destruct pre_extends as (_ & _ & P). destruct (P v Hv _ _ G) as (w2 & q2 & G2). exists (w ++ w2), q2.
    rewrite <- !app_assoc in G2 |- *. exact G2.
  - cbn [allowed] in A. destruct A as [A|[A|[Ho D]]]; [| |now apply dangling_viable].
    + exists [], q, s, w, t, []. repeat split; auto. now rewrite app_nil_r.
    + destruct (policy_joins w q t Hw A) as (q2 & G). apply begins_viable; auto. exists [a_true], q2. rewrite <- app_assoc. exact G.
Qed.

(** Every operator stands after the left side of a comparison. *)
Definition has_left (P : list token -> Prop) (a : list token) : Prop := exists v l q, a = v ++ l /\ P v /\ g_var l q.
Lemma var_no_op u q : g_var u q -> Forall (fun t => t_type t <> OP) u.
Proof.
  assert (At : forall u q, g_atomic u q -> Forall (fun t => t_type t <> OP) u).
  { intros u' q' H. apply g_atomic_head in H as (t & -> & H). constructor; auto. intros E. unfold is_atomic in H. rewrite E in H. discriminate. }
  assert (Sv : forall u l, g_setval u l -> Forall (fun t => t_type t <> OP) u).
  { induction 1 as [u' a H|u' a c v l H Hc Hv IH]; [eauto|]. apply Forall_app. split; [eauto|]. constructor; auto. rewrite Hc. discriminate. }
  intros [u' a H|u' a H|u' a H].
  - eauto.
  - destruct H as [lb rb Hl Hr|lb u0 l rb Hl Hu Hr].
    + repeat constructor; congruence.
    + constructor; [congruence|]. apply Forall_app. split; [eauto|]. constructor; [congruence|constructor].
  - apply g_att_head in H as (t & -> & H). constructor; auto. intros E. unfold is_att in H. rewrite E in H. discriminate.
Qed.
Lemma split_at {A} (a b u v : list A) o c : a ++ o :: b = u ++ c :: v ->
  (exists b', u = a ++ o :: b') \/ (a = u /\ o = c /\ b = v) \/ (exists a', a = u ++ c :: a' /\ v = a' ++ o :: b).
Proof.
  intros E. destruct (app_eq_app _ _ _ _ E) as (l & [[-> E2]|[-> E2]]); destruct l as [|x l]; cbn in E2; injection E2 as E2.
  - right. left. rewrite app_nil_r. auto.
  - right. right. subst. eauto.
  - right. left. rewrite app_nil_r. auto.
  - left. subst. eauto.
Qed.
Lemma g_op :
  (forall u p, g_exp u p -> forall a o b, u = a ++ o :: b -> t_type o = OP -> has_left pre_exp a) /\
  (forall u p, g_term u p -> forall a o b, u = a ++ o :: b -> t_type o = OP -> has_left pre_term a) /\
  (forall u p, g_policy u p -> forall a o b, u = a ++ o :: b -> t_type o = OP -> has_left pre_policy a).
Proof.
  assert (N : forall (a b : list token) o, Forall (fun t => t_type t <> OP) (a ++ o :: b) -> t_type o = OP -> False).
  { intros a b o H Ho. apply Forall_app in H as [_ H]. inversion H. contradiction. }
  assert (NB : forall u p a o b, g_boolvar u p -> u = a ++ o :: b -> t_type o = OP -> False).
  { intros u p a o b H E Ho. apply g_boolvar_head in H as (t & -> & H). destruct a as [|x [|y a]]; try discriminate. cbn in E. injection E as <- _.
    rewrite Ho in H. destruct H as [H|H]; [discriminate|]. unfold is_att in H. rewrite Ho in H. discriminate. }
  apply g_mind.
  - intros u l o' v r Hu Ho' Hv a o b E Ho. symmetry in E. apply split_at in E as [(b' & ->)|[(-> & _)|(a' & -> & ->)]].
    + exfalso. apply var_no_op in Hu. eapply N; eauto.
    + exists [], u, l. repeat split; auto. constructor.
    + exfalso. apply var_no_op in Hv. eapply N; eauto.
  - intros u b0 Hb a o b E Ho. exfalso. eapply NB; eauto.
  - intros t u b0 Ht Hb a o b E Ho. destruct a as [|x a]; cbn in E; injection E as -> E; [congruence|]. exfalso. eapply NB; eauto.
  - intros lp u p rp Hl Hu IH Hr a o b E Ho. destruct a as [|x a]; cbn in E; injection E as -> E; [congruence|].
    symmetry in E. apply split_at in E as [(b' & ->)|[(_ & -> & _)|(a' & _ & E)]]; [|congruence|destruct a'; discriminate].
    destruct (IH a o b' eq_refl Ho) as (v & l & q & -> & Hv & Hl2). exists (x :: v), l, q. repeat split; auto. now apply pe_paren.
  - intros t lp u p rp Ht Hl Hu IH Hr a o b E Ho. destruct a as [|x a]; cbn in E; injection E as -> E; [congruence|].
    destruct a as [|y a]; cbn in E; injection E as -> E; [congruence|].
    symmetry in E. apply split_at in E as [(b' & ->)|[(_ & -> & _)|(a' & _ & E)]]; [|congruence|destruct a'; discriminate].
    destruct (IH a o b' eq_refl Ho) as (v & l & q & -> & Hv & Hl2). exists (x :: y :: v), l, q. repeat split; auto. now apply pe_not_paren.
  - intros u e He IH a o b E Ho. destruct (IH a o b E Ho) as (v & l & q & -> & Hv & Hl). exists v, l, q. repeat split; auto. now apply pt_first.
  - intros u l a v r Hl IHl Ha Hr IHr a0 o b E Ho. symmetry in E. apply split_at in E as [(b' & ->)|[(_ & -> & _)|(a' & -> & ->)]].
    + eapply IHl; eauto.
    + destruct Ha. congruence.
    + destruct (IHr a' o b eq_refl Ho) as (v2 & l2 & q & -> & Hv & Hl2). exists (u ++ a :: v2), l2, q.
      rewrite <- app_assoc. repeat split; auto. eapply pt_and; eauto.
  - intros u e He IH a o b E Ho. destruct (IH a o b E Ho) as (v & l & q & -> & Hv & Hl). exists v, l, q. repeat split; auto. now apply pp_first.
  - intros u l a v r Hl IHl Ha Hr IHr a0 o b E Ho. symmetry in E. apply split_at in E as [(b' & ->)|[(_ & -> & _)|(a' & -> & ->)]].
    + eapply IHl; eauto.
    + destruct Ha. congruence.
    + destruct (IHr a' o b eq_refl Ho) as (v2 & l2 & q & -> & Hv & Hl2). exists (u ++ a :: v2), l2, q.
      rewrite <- app_assoc. repeat split; auto. eapply pp_or; eauto.
Qed.

(** A state has not seen the end of the policy. *)
Lemma waits_open u k s b e tr p : waits u k -> Forall bool_ok u -> u = s :: b ++ e :: tr -> t_type s = START -> g_policy b p -> t_type e = END -> False.
Proof.
  intros Hw Hb -> Hs Hg He.
  pose proof (waits_run U _ k odd_token odd_token [] 0 Hw Hb (odd_refused _ k) (odd_no_op k)) as E.
  assert (D : derives ((s :: b ++ e :: tr) ++ [odd_token; odd_token]) p).
  { exists s, b, e, (tr ++ [odd_token; odd_token]). repeat split; auto. cbn. now rewrite <- app_assoc. }
  apply (parse_derives U _ _ 0) in D. rewrite <- forget_parse, E in D. cbn in D.
  inversion Hb as [|? ? _ Hb2]; subst. apply Forall_app in Hb2 as [Hb2 _]. apply g_buildable in Hg; auto.
  destruct (build_ok U _ Hg 0) as (a & n & B). congruence.
Qed.

Lemma allowed_dec u k t : no_op k t -> allowed u k t \/ ~ allowed u k t.
Proof.
  assert (A : attribute t \/ ~ attribute t) by (rewrite attribute_att; destruct (is_att t); auto).
  assert (C : constant t \/ ~ constant t) by (rewrite constant_atomic; destruct (is_atomic t); auto).
  assert (T : forall ty, t_type t = ty \/ t_type t <> ty) by (intros ty; rewrite <- ttype_eqb_eq; destruct (ttype_eqb (t_type t) ty); auto).
  assert (I : forall l, In (t_type t) l \/ ~ In (t_type t) l).
  { induction l as [|x l [H|H]]; cbn; auto. destruct (T x) as [<-|E]; [auto|right]. intros [X|X]; auto. }
  assert (J : joins t \/ ~ joins t).
  { unfold joins. rewrite <- !is_bool_op_word. destruct (is_bool_op "AND" t), (is_bool_op "OR" t); auto. right. intros [|]; discriminate. }
  destruct k; cbn [no_op allowed]; intros N.
  - specialize (I [NOT_OP; LPARN; LSET; BOOL]). tauto.
  - specialize (I [LPARN; BOOL]). tauto.
  - specialize (T RSET). destruct first; [tauto|]. destruct C; [auto|]. right. intros [?|[? _]]; [auto|discriminate].
  - apply I.
  - specialize (T LSET). tauto.
  - apply T.
  - specialize (T RPARN). tauto.
  - specialize (T END). tauto.
Qed.
Lemma viable_allowed u k t : waits u k -> Forall bool_ok u -> bool_ok t -> viable (u ++ [t]) -> allowed u k t.
Proof.
  intros Hw Hb Ht Hv.
  assert (Dec : allowed u k t \/ no_op k t \/ (t_type t = OP /\ match k with WClose _ | WFinish => True | _ => False end)).
  { destruct (ttype_eqb (t_type t) OP) eqn:E; [apply ttype_eqb_eq in E|apply ttype_eqb_neq in E]; destruct k; cbn; auto. }
  destruct Dec as [D|[D|[Ho D]]]; auto.
  - (* the run fails *)
    assert (X : ~ ~ allowed u k t).
    { intros Hn. pose proof (waits_nonempty _ _ Hw) as (s & v & -> & Hs). cbn [app] in Hv.
      inversion Hb as [|? ? Hbs Hbv]; subst.
      apply (viable_accepted U s (v ++ [t])) in Hv as (w & f & n & a & r & m & e & r2 & A1 & A2); [|apply Forall_app; auto].
      apply eat_ok in A2 as [-> He]. apply rules_sound in A1 as (b & p & Eb & Hg & B).
      assert (Dv : derives (s :: (v ++ [t]) ++ w ++ [odd_token]) p).
      { exists s, b, e, (r2 ++ [odd_token]). repeat split; auto. rewrite app_assoc, Eb. cbn. now rewrite <- app_assoc. }
      apply (parse_derives U _ _ n) in Dv. rewrite B, <- forget_parse in Dv.
      replace (s :: (v ++ [t]) ++ w ++ [odd_token]) with ((s :: v) ++ t :: w ++ [odd_token]) in Dv by (cbn; now rewrite <- app_assoc).
      destruct (w ++ [odd_token]) as [|y r] eqn:Ew; [destruct w; discriminate|].
      rewrite (waits_run U _ k t y r n Hw Hb Hn D) in Dv. discriminate. }
    destruct (allowed_dec u k t D); tauto.
  - assert (Left : has_left pre_policy (tl u)).
    { pose proof (waits_nonempty _ _ Hw) as (s & v & -> & Hs). destruct Hv as (w & p & s' & b & e & tr & E & Hs' & Hg & He).
      cbn [app] in E. injection E as <- E. rewrite <- app_assoc in E. cbn [app] in E.
      apply split_at in E as [(b' & ->)|[(_ & <- & _)|(a' & Ev & _)]].
      - destruct g_op as (_ & _ & G). cbn [tl]. eapply G; eauto.
      - congruence.
      - exfalso. eapply (waits_open (s :: v)); eauto. now rewrite Ev. }
    pose proof (waits_nonempty _ _ Hw) as (s & v & -> & Hs). cbn [tl] in Left. destruct Left as (v0 & l & q & -> & Hv0 & Hl).
    assert (Next : exists y, allowed (s :: v0 ++ l) k y /\ t_type y <> OP /\ bool_ok y).
    { destruct k; try contradiction; [exists (Tok RPARN 0 TNone)|exists (Tok END 0 TNone)]; cbn; (repeat split; [auto|discriminate|unfold bool_ok; discriminate]). }
    destruct Next as (y & Ay & Hy & By). pose proof (allowed_viable _ _ _ Hw Ay) as Vy.
    destruct Hl as [l a H|l a H|l a H].
    + exfalso. apply g_atomic_head in H as (c & -> & Hc). apply constant_atomic in Hc.
      assert (Hbv : Forall bool_ok (s :: v0)) by (inversion Hb as [|? ? B1 B2]; subst; apply Forall_app in B2 as [B2 _]; auto).
      apply (const_not_viable U (s :: v0) c y); auto; [exists s, v0; auto|].
      cbn [app] in Vy |- *. rewrite <- app_assoc in Vy. exact Vy.
    + exfalso. assert (Hw2 : waits (s :: v0 ++ l) WOperator) by (apply w_in; auto; eapply in_operator; eauto).
      pose proof (waits_same _ _ _ Hb Hw Hw2 odd_token) as E. injection E as E1 E2.
      destruct k; try contradiction.
      * apply (f_equal (firstn 20)) in E1. lazy in E1. discriminate.
      * vm_compute in E2. discriminate.
    + assert (Dg : dangling (s :: v0 ++ l)).
      { apply g_att_head in H as (c & -> & Hc). apply attribute_att in Hc. exists (s :: v0), c. repeat split; auto. exists s, v0. auto. }
      destruct k; try contradiction; cbn [allowed]; auto.
Qed.
End WithUnicode.
