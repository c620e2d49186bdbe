(** * DiagProofs3: the message in every state *)

From Coq Require Import NArith ZArith List Bool Lia String.
From Verif Require Import PyBase PyNum Lexer LexSpec LexProps Values Ast Parser Grammar ParseProofs ParseProofs2 ParseProps ParsePos AttCert Errors Diag DiagProofs DiagSpec DiagProofs2.
Import ListNotations.
Open Scope Z_scope.

Section WithUnicode.
Variable U : unicode.

Lemma parse_syn s ts last e : t_type s = START -> d_parse U (s :: ts) last = DSyn e ->
  exists u t r k, s :: ts = u ++ t :: r /\ waits u k /\ e = say k t.
Proof.
  intros Hs H. unfold d_parse in H. rewrite eat_yes in H by now rewrite Hs. cbn [dbind] in H.
  apply dbind_syn in H as [H|([[nd ts2] n1] & H1 & H)].
  - apply rules_syn in H as (v & x & t & r & k & -> & Hv & Hx & ->). exists (s :: v ++ x), t, r, k.
    cbn. rewrite <- app_assoc. repeat split; auto. now constructor.
  - apply dbind_syn in H as [H|([x ts3] & _ & H)]; [|discriminate]. apply eat_syn in H as (t & r & -> & _ & ->).
    assert (K : policy_rule U (parse_fuel (s :: ts)) ts last = Ok (nd, t :: r, n1)) by (eapply forget_ok; [apply forget_rules|exact H1]).
    apply rules_sound in K as (u & q & -> & Hq & _). exists (s :: u), t, r, WFinish. repeat split; auto. econstructor; eauto.
Qed.

Lemma d_term_S f ts n : d_term U (S f) ts n = ('(e, ts1, n1) <% d_exp U f ts n ;; d_term_loop U f e ts1 n1).
Proof. reflexivity. Qed.
Lemma d_policy_S f ts n : d_policy U (S f) ts n = ('(e, ts1, n1) <% d_term U f ts n ;; d_policy_loop U f e ts1 n1).
Proof. reflexivity. Qed.
Lemma d_term_loop_hit f a t r n : is_word BOOL_OP "AND" t -> d_term_loop U (S f) a (t :: r) n =
  ('(e, ts2, n1) <% d_exp U f r n ;; '(nd, n2) <% of_res (mk_node U CBoolOp t [a; e] n1) ;; d_term_loop U f nd ts2 n2).
Proof.
  intros Ha. pose proof Ha as Hw. apply is_bool_op_word in Hw. cbn [d_term_loop dcur cur of_res dbind]. rewrite Hw.
  rewrite eat_yes by (destruct Ha as [-> _]; reflexivity). reflexivity.
Qed.
Lemma d_policy_loop_hit f a t r n : is_word BOOL_OP "OR" t -> d_policy_loop U (S f) a (t :: r) n =
  ('(e, ts2, n1) <% d_term U f r n ;; '(nd, n2) <% of_res (mk_node U CBoolOp t [a; e] n1) ;; d_policy_loop U f nd ts2 n2).
Proof.
  intros Ha. pose proof Ha as Hw. apply is_bool_op_word in Hw. cbn [d_policy_loop dcur cur of_res dbind]. rewrite Hw.
  rewrite eat_yes by (destruct Ha as [-> _]; reflexivity). reflexivity.
Qed.
Lemma d_exp_paren f lp r n : t_type lp = LPARN -> d_exp U (S f) (lp :: r) n =
  ('(s, ts3, n1) <% d_policy U f r n ;; '(_, ts4) <% d_eat RPARN "exp" (Some (paren_msg lp)) ts3 ;; DOk (s, ts4, n1)).
Proof.
  intros Hl. cbn [d_exp dcur cur of_res dbind]. rewrite Hl. cbn [ttype_eqb ttype_val N.eqb Pos.eqb].
  rewrite eat_yes by now rewrite Hl. reflexivity.
Qed.
Lemma d_exp_not_paren f t lp r n : t_type t = NOT_OP -> t_type lp = LPARN -> d_exp U (S f) (t :: lp :: r) n =
  ('(sub, ts2, n1) <%
     ('(s, ts3, n1) <% d_policy U f r n ;; '(_, ts4) <% d_eat RPARN "exp" (Some (paren_msg lp)) ts3 ;; DOk (s, ts4, n1)) ;;
   '(nd, n2) <% of_res (mk_node U CNot t [sub] n1) ;; DOk (nd, ts2, n2)).
Proof.
  intros Ht Hl. cbn [d_exp dcur cur of_res dbind]. rewrite Ht. cbn [ttype_eqb ttype_val N.eqb Pos.eqb].
  rewrite eat_yes by now rewrite Ht. cbn [dbind dcur cur of_res]. rewrite Hl. cbn [ttype_eqb ttype_val N.eqb Pos.eqb].
  rewrite eat_yes by now rewrite Hl. reflexivity.
Qed.

(** ** Runs over what has been read *)

Lemma dok {A} (m : dres A) a : forget m = Ok a -> m = DOk a.
Proof. destruct m; cbn; congruence. Qed.

Lemma d_exp_complete u p : g_exp u p -> Forall bool_ok u -> exists f0, forall f rest n, (f0 <= f)%nat -> follow rest ->
  exists a n', d_exp U f (u ++ rest) n = DOk (a, rest, n').
Proof.
  intros Hg Hb. destruct (rules_complete U) as (C & _). destruct (C _ _ Hg) as (f0 & H). exists f0. intros f rest n Hf Hr.
  apply g_buildable in Hg; auto. destruct (build_ok U _ Hg n) as (a & n' & B). exists a, n'. apply dok.
  rewrite (proj1 (forget_rules U f)). rewrite H by auto. now rewrite B.
Qed.

Lemma d_term_complete u p : g_term u p -> Forall bool_ok u -> exists f0 d, forall f rest n, (f0 <= f)%nat -> follow rest ->
  exists a n', d_term U (d + f) (u ++ rest) n = d_term_loop U f a rest n'.
Proof.
  induction 1 as [u e He|u l a v r Hl IH Ha Hr]; intros Hb.
  - destruct (d_exp_complete _ _ He Hb) as (f0 & H). exists f0, 1%nat. intros f rest n Hf Hr.
    destruct (H f rest n Hf Hr) as (a & n' & E). exists a, n'. change (1 + f)%nat with (S f). rewrite d_term_S. now rewrite E.
  - apply Forall_app in Hb as [Hbu Hb]. inversion Hb as [|? ? _ Hbv]; subst. destruct (IH Hbu) as (f1 & d & H1).
    destruct (d_exp_complete _ _ Hr Hbv) as (f2 & H2). exists (f1 + f2)%nat, (S d). intros f rest n Hf Hfo.
    rewrite <- app_assoc. cbn [app]. replace (S d + f)%nat with (d + S f)%nat by lia.
    destruct (H1 (S f) (a :: v ++ rest) n) as (x & n1 & ->); [lia|cbn; destruct Ha as [-> _]; discriminate|].
    destruct (H2 f rest n1) as (y & n2 & E2); [lia|auto|]. rewrite d_term_loop_hit by auto. rewrite E2. cbn [dbind]. eexists _, _. reflexivity.
Qed.
Lemma d_term_done u p : g_term u p -> Forall bool_ok u -> exists f0, forall f rest n, (f0 <= f)%nat -> follow_and rest ->
  exists a n', d_term U f (u ++ rest) n = DOk (a, rest, n').
Proof.
  intros Hg Hb. destruct (d_term_complete _ _ Hg Hb) as (f0 & d & H). exists (S (d + f0)). intros f rest n Hf Hr.
  replace f with (d + (f - d))%nat by lia.
  destruct (H (f - d)%nat rest n) as (a & n' & ->); [lia|destruct rest; cbn in *; tauto|]. exists a, n'.
  destruct rest as [|t rest]; [contradiction|]. cbn in Hr. destruct (f - d)%nat as [|k] eqn:E; [lia|].
  cbn [d_term_loop dcur cur of_res dbind]. now rewrite bool_op_false by tauto.
Qed.
Lemma d_policy_complete u p : g_policy u p -> Forall bool_ok u -> exists f0 d, forall f rest n, (f0 <= f)%nat -> follow_and rest ->
  exists a n', d_policy U (d + f) (u ++ rest) n = d_policy_loop U f a rest n'.
Proof.
  induction 1 as [u e He|u l a v r Hl IH Ha Hr]; intros Hb.
  - destruct (d_term_done _ _ He Hb) as (f0 & H). exists f0, 1%nat. intros f rest n Hf Hr.
    destruct (H f rest n Hf Hr) as (a & n' & E). exists a, n'. change (1 + f)%nat with (S f). rewrite d_policy_S. now rewrite E.
  - apply Forall_app in Hb as [Hbu Hb]. inversion Hb as [|? ? _ Hbv]; subst. destruct (IH Hbu) as (f1 & d & H1).
    destruct (d_term_done _ _ Hr Hbv) as (f2 & H2). exists (f1 + f2)%nat, (S d). intros f rest n Hf Hfo.
    rewrite <- app_assoc. cbn [app]. replace (S d + f)%nat with (d + S f)%nat by lia.
    destruct (H1 (S f) (a :: v ++ rest) n) as (x & n1 & ->);
      [lia|cbn; unfold is_word in *; destruct Ha as [-> ->]; split; [discriminate|intros [_ ?]; discriminate]|].
    destruct (H2 f rest n1) as (y & n2 & E2); [lia|auto|]. rewrite d_policy_loop_hit by auto. rewrite E2. cbn [dbind]. eexists _, _. reflexivity.
Qed.
Lemma d_policy_done u p : g_policy u p -> Forall bool_ok u -> exists f0, forall f rest n, (f0 <= f)%nat -> follow_or rest ->
  exists a n', d_policy U f (u ++ rest) n = DOk (a, rest, n').
Proof.
  intros Hg Hb. destruct (d_policy_complete _ _ Hg Hb) as (f0 & d & H). exists (S (d + f0)). intros f rest n Hf Hr.
  replace f with (d + (f - d))%nat by lia.
  destruct (H (f - d)%nat rest n) as (a & n' & ->); [lia|destruct rest; cbn in *; tauto|]. exists a, n'.
  destruct rest as [|t rest]; [contradiction|]. cbn in Hr. destruct (f - d)%nat as [|k] eqn:E; [lia|].
  cbn [d_policy_loop dcur cur of_res dbind]. now rewrite bool_op_false by tauto.
Qed.

(** Where an expression has to start, the run fails as that expression does. *)
Lemma d_pre_run rest e : (exists f1, forall f n, (f1 <= f)%nat -> d_exp U f rest n = DSyn e) ->
  (forall u, pre_exp u -> Forall bool_ok u -> exists f0, forall f n, (f0 <= f)%nat -> d_exp U f (u ++ rest) n = DSyn e) /\
  (forall u, pre_term u -> Forall bool_ok u -> exists f0, forall f n, (f0 <= f)%nat -> d_term U f (u ++ rest) n = DSyn e) /\
  (forall u, pre_policy u -> Forall bool_ok u -> exists f0, forall f n, (f0 <= f)%nat -> d_policy U f (u ++ rest) n = DSyn e).
Proof.
  intros Hrest. apply pre_mind.
  - intros _. exact Hrest.
  - intros lp u Hl Hu IH Hb. inversion Hb; subst. destruct (IH H2) as (f0 & H). exists (S f0).
    intros f n Hf. destruct f as [|f]; [lia|]. cbn [app]. rewrite d_exp_paren by auto. now rewrite H by lia.
  - intros t0 lp u H0 Hl Hu IH Hb. inversion Hb as [|? ? _ Hb2]; subst. inversion Hb2; subst.
    destruct (IH H3) as (f0 & H). exists (S f0).
    intros f n Hf. destruct f as [|f]; [lia|]. cbn [app]. rewrite d_exp_not_paren by auto. now rewrite H by lia.
  - intros u Hu IH Hb. destruct (IH Hb) as (f0 & H). exists (S f0). intros f n Hf.
    destruct f as [|f]; [lia|]. rewrite d_term_S. now rewrite H by lia.
  - intros v l a u Hv Ha Hu IH Hb. apply Forall_app in Hb as [Hbv Hb]. inversion Hb as [|? ? _ Hbu]; subst.
    destruct (IH Hbu) as (f0 & H). destruct (d_term_complete _ _ Hv Hbv) as (f1 & d & HC).
    exists (d + S (f0 + f1))%nat. intros f n Hf.
    replace f with (d + (f - d))%nat by lia. rewrite <- app_assoc. cbn [app].
    destruct (HC (f - d)%nat (a :: u ++ rest) n) as (x & n' & ->); [lia|cbn; destruct Ha as [-> _]; discriminate|].
    destruct (f - d)%nat as [|k] eqn:E; [lia|]. rewrite d_term_loop_hit by auto. now rewrite H by lia.
  - intros u Hu IH Hb. destruct (IH Hb) as (f0 & H). exists (S f0). intros f n Hf.
    destruct f as [|f]; [lia|]. rewrite d_policy_S. now rewrite H by lia.
  - intros v l a u Hv Ha Hu IH Hb. apply Forall_app in Hb as [Hbv Hb]. inversion Hb as [|? ? _ Hbu]; subst.
    destruct (IH Hbu) as (f0 & H). destruct (d_policy_complete _ _ Hv Hbv) as (f1 & d & HC).
    exists (d + S (f0 + f1))%nat. intros f n Hf.
    replace f with (d + (f - d))%nat by lia. rewrite <- app_assoc. cbn [app].
    destruct (HC (f - d)%nat (a :: u ++ rest) n) as (x & n' & ->);
      [lia|cbn; unfold is_word in *; destruct Ha as [-> ->]; split; [discriminate|intros [_ ?]; discriminate]|].
    destruct (f - d)%nat as [|k] eqn:E; [lia|]. rewrite d_policy_loop_hit by auto. now rewrite H by lia.
Qed.

(** ** Fuel *)

Definition dstable {A} (x y : dres A) : Prop := x <> DExc EFuel -> y = x.
Lemma dstable_refl {A} (x : dres A) : dstable x x.
Proof. intros _. reflexivity. Qed.
Lemma dstable_bind {A B} (x y : dres A) (f g : A -> dres B) :
  dstable x y -> (forall a, dstable (f a) (g a)) -> dstable (dbind x f) (dbind y g).
Proof.
  intros H HS Hn. destruct x as [a|e|e].
  - rewrite H by discriminate. apply HS. exact Hn.
  - rewrite H by discriminate. reflexivity.
  - rewrite H; auto. intros [= ->]. now apply Hn.
Qed.

Lemma d_rules_stable f :
  (forall ts n, dstable (d_exp U f ts n) (d_exp U (S f) ts n)) /\
  (forall a ts n, dstable (d_term_loop U f a ts n) (d_term_loop U (S f) a ts n)) /\
  (forall ts n, dstable (d_term U f ts n) (d_term U (S f) ts n)) /\
  (forall a ts n, dstable (d_policy_loop U f a ts n) (d_policy_loop U (S f) a ts n)) /\
  (forall ts n, dstable (d_policy U f ts n) (d_policy U (S f) ts n)).
Proof.
  induction f as [|f (IHe & IHtl & IHt & IHpl & IHp)].
  { repeat split; intros; intros H; now contradiction H. }
  assert (Paren : forall ts n, dstable
    ('(lp, ts2) <% d_eat LPARN "exp" None ts ;; '(s, ts3, n1) <% d_policy U f ts2 n ;;
     '(_, ts4) <% d_eat RPARN "exp" (Some (paren_msg lp)) ts3 ;; DOk (s, ts4, n1))
    ('(lp, ts2) <% d_eat LPARN "exp" None ts ;; '(s, ts3, n1) <% d_policy U (S f) ts2 n ;;
     '(_, ts4) <% d_eat RPARN "exp" (Some (paren_msg lp)) ts3 ;; DOk (s, ts4, n1))).
  { intros ts n. apply dstable_bind; [apply dstable_refl|]. intros [lp ts2].
    apply dstable_bind; [apply IHp|]. intros [[s ts3] n1]. apply dstable_refl. }
  repeat split.
  - intros ts n. remember (S f) as g. rewrite Heqg at 1. cbn [d_exp].
    apply dstable_bind; [apply dstable_refl|]. intros t.
    destruct (ttype_eqb (t_type t) NOT_OP).
    + apply dstable_bind; [apply dstable_refl|]. intros [t0 ts1]. apply dstable_bind; [apply dstable_refl|]. intros t1.
      apply dstable_bind; [|intros [[]]; apply dstable_refl].
      destruct (ttype_eqb (t_type t1) LPARN); [apply Paren|apply dstable_refl].
    + destruct (ttype_eqb (t_type t) LPARN); [apply Paren|apply dstable_refl].
  - intros a ts n. remember (S f) as g. rewrite Heqg at 1. cbn [d_term_loop].
    apply dstable_bind; [apply dstable_refl|]. intros t. destruct (is_bool_op "AND" t); [|apply dstable_refl].
    apply dstable_bind; [apply dstable_refl|]. intros [t0 ts0]. apply dstable_bind; [apply IHe|]. intros [[e ts1] n1].
    apply dstable_bind; [apply dstable_refl|]. intros [nd n2]. apply IHtl.
  - intros ts n. remember (S f) as g. rewrite Heqg at 1. cbn [d_term].
    apply dstable_bind; [apply IHe|]. intros [[e ts1] n1]. apply IHtl.
  - intros a ts n. remember (S f) as g. rewrite Heqg at 1. cbn [d_policy_loop].
    apply dstable_bind; [apply dstable_refl|]. intros t. destruct (is_bool_op "OR" t); [|apply dstable_refl].
    apply dstable_bind; [apply dstable_refl|]. intros [t0 ts0]. apply dstable_bind; [apply IHt|]. intros [[e ts1] n1].
    apply dstable_bind; [apply dstable_refl|]. intros [nd n2]. apply IHpl.
  - intros ts n. remember (S f) as g. rewrite Heqg at 1. cbn [d_policy].
    apply dstable_bind; [apply IHt|]. intros [[e ts1] n1]. apply IHpl.
Qed.
Lemma d_policy_stable f g ts n :
  (f <= g)%nat -> d_policy U f ts n <> DExc EFuel -> d_policy U g ts n = d_policy U f ts n.
Proof.
  induction 1 as [|g Hle IH]; auto. intros H. rewrite <- IH by auto.
  apply d_rules_stable. now rewrite IH.
Qed.
Lemma d_policy_parse s r n f :
  (parse_fuel (s :: r) <= f)%nat -> d_policy U f r n = d_policy U (parse_fuel (s :: r)) r n.
Proof.
  intros H. apply d_policy_stable; auto. intros E.
  assert (K : policy_rule U (parse_fuel (s :: r)) r n = Err EFuel).
  { rewrite <- (proj2 (proj2 (proj2 (proj2 (forget_rules U _))))), E. reflexivity. }
  revert K. apply rules_fuel. unfold parse_fuel. cbn [List.length]. lia.
Qed.

(** ** The failing step *)

Lemma attribute_att t : attribute t <-> is_att t = true.
Proof.
  unfold attribute, is_att. split.
  - intros [<-|[<-|[<-|[<-|[<-|[]]]]]]; reflexivity.
  - destruct (t_type t); try discriminate; cbn; auto 7.
Qed.
Lemma not_true b : (b = true -> False) -> b = false.
Proof. destruct b; auto. intros H. now contradiction H. Qed.

Lemma att_refused t r n : is_att t = false -> d_att_name U (t :: r) n = DSyn (say WNegated t).
Proof.
  intros H. unfold d_att_name, d_leaf, d_eat. cbn [dcur cur of_res dbind]. unfold is_att in H.
  unfold say. cbn [wording rule_of]. destruct (t_type t); try discriminate; reflexivity.
Qed.
Lemma atomic_refused b t r n : is_atomic t = false -> d_atomic U (t :: r) n = DSyn (say (WElement b) t).
Proof.
  intros H. unfold d_atomic, d_leaf, d_eat. cbn [dcur cur of_res dbind]. unfold is_atomic in H.
  unfold say. cbn [wording rule_of]. destruct (t_type t); try discriminate; reflexivity.
Qed.
Lemma d_atomic_run u p rest n : g_atomic u p -> exists a n', d_atomic U (u ++ rest) n = DOk (a, rest, n').
Proof.
  intros H. pose proof (g_atomic_buildable _ _ H) as B. destruct (build_ok U _ B n) as (a & n' & E). exists a, n'.
  apply dok. rewrite forget_atomic, (atomic_rule_run U _ _ rest n H). now rewrite E.
Qed.
Lemma d_var_run u p rest n : g_var u p -> exists a n', d_var U (u ++ rest) n = DOk (a, rest, n').
Proof.
  intros H. pose proof (g_var_buildable _ _ H) as B. destruct (build_ok U _ B n) as (a & n' & E). exists a, n'.
  apply dok. rewrite forget_var, (var_rule_run U _ _ rest n H). now rewrite E.
Qed.

Lemma eat_no ty rule m t r : ttype_eqb (t_type t) ty = false -> d_eat ty rule (Some m) (t :: r) = DSyn (PErr (m t) (t_pos t) t (lit rule)).
Proof. intros H. unfold d_eat. cbn [dcur cur of_res dbind]. now rewrite H. Qed.

Lemma d_tail_run w l rest e : g_tail w l -> (forall f n, d_set_loop U (S f) rest n = DSyn e) ->
  forall f n, (List.length w < f)%nat -> d_set_loop U f (w ++ rest) n = DSyn e.
Proof.
  intros H Hr. induction H as [|c u a v l Hc Ha Hv IH]; intros f n Hf; (destruct f as [|f]; [lia|]); [apply Hr|].
  cbn [app d_set_loop dcur cur of_res dbind]. rewrite Hc. cbn [ttype_eqb ttype_val N.eqb Pos.eqb].
  rewrite eat_yes by now rewrite Hc. cbn [dbind]. rewrite <- app_assoc.
  destruct (d_atomic_run u a (v ++ rest) n Ha) as (x & n1 & ->). cbn [dbind]. rewrite IH; [reflexivity|].
  cbn [List.length] in Hf. rewrite app_length in Hf. apply g_atomic_head in Ha as (t & -> & _). cbn in Hf. lia.
Qed.

Lemma set_run s k t r n u : in_set s k -> ~ allowed u k t -> d_set U (s ++ t :: r) n = DSyn (say k t).
Proof.
  intros H Hn. destruct H as [lb Hl|lb w l c Hl Hw Hc|lb w l Hl Hw]; unfold d_set; cbn [app];
    rewrite eat_yes by (rewrite Hl; reflexivity); cbn [dbind].
  - cbn [dcur cur of_res dbind]. cbn [allowed] in Hn.
    assert (ttype_eqb (t_type t) RSET = false) as -> by (apply not_true; intros E; apply ttype_eqb_eq in E; apply Hn; auto).
    rewrite (atomic_refused true) by (apply not_true; intros E; apply constant_atomic in E; apply Hn; auto). reflexivity.
  - apply setval_tail in Hw as (v & w' & a & m & -> & -> & Ha & Ht). pose proof (g_atomic_head _ _ Ha) as (x & -> & Hx).
    cbn [app dcur cur of_res dbind]. rewrite (is_atomic_type_neq x RSET) by auto.
    change (x :: (w' ++ [c]) ++ t :: r) with ([x] ++ ((w' ++ [c]) ++ t :: r)).
    destruct (d_atomic_run [x] a ((w' ++ [c]) ++ t :: r) n Ha) as (y & n1 & ->). cbn [dbind].
    rewrite <- app_assoc. cbn [app]. rewrite (d_tail_run w' m (c :: t :: r) (say (WElement false) t) Ht); [reflexivity| |].
    + intros f n2. cbn [d_set_loop dcur cur of_res dbind]. rewrite Hc. cbn [ttype_eqb ttype_val N.eqb Pos.eqb].
      rewrite eat_yes by now rewrite Hc. cbn [dbind]. cbn [allowed] in Hn.
      rewrite (atomic_refused false) by (apply not_true; intros E; apply constant_atomic in E; apply Hn; auto). reflexivity.
    + rewrite app_length. lia.
  - apply setval_tail in Hw as (v & w' & a & m & -> & -> & Ha & Ht). pose proof (g_atomic_head _ _ Ha) as (x & -> & Hx).
    cbn [app dcur cur of_res dbind]. rewrite (is_atomic_type_neq x RSET) by auto.
    change (x :: w' ++ t :: r) with ([x] ++ (w' ++ t :: r)).
    destruct (d_atomic_run [x] a (w' ++ t :: r) n Ha) as (y & n1 & ->). cbn [dbind].
    rewrite (d_tail_run w' m (t :: r) (say WComma t) Ht); [reflexivity| |].
    + intros f n2. cbn [d_set_loop dcur cur of_res dbind]. cbn [allowed] in Hn.
      assert (ttype_eqb (t_type t) RSET = false) as -> by (apply not_true; intros E; apply ttype_eqb_eq in E; apply Hn; cbn; auto).
      rewrite eat_no by (apply not_true; intros E; apply ttype_eqb_eq in E; apply Hn; cbn; auto). reflexivity.
    + rewrite app_length. lia.
Qed.
Lemma d_var_set s k rest n : in_set s k -> d_var U (s ++ rest) n = d_set U (s ++ rest) n.
Proof.
  intros H. assert (exists lb s', s = lb :: s' /\ t_type lb = LSET) as (lb & s' & -> & Hl) by (destruct H; eauto).
  unfold d_var, d_const, is_att, is_const, is_atomic. cbn [app dcur cur of_res dbind]. rewrite Hl. cbn [orb ttype_eqb ttype_val N.eqb Pos.eqb].
  reflexivity.
Qed.

Definition d_cmp (ts : list token) (n : Z) : dres (ast * list token * Z) :=
  '(l, ts1, n1) <% d_var U ts n ;;
  '(o, ts2) <% d_eat OP "exp"
     (Some (fun t => lit "Syntax error, expected operation not " ++ type_name (t_type t) ++ lit ".")) ts1 ;;
  '(r, ts3, n2) <% d_var U ts2 n1 ;;
  '(nd, n3) <% of_res (mk_node U COp o [l; r] n2) ;;
  DOk (nd, ts3, n3).
Lemma d_exp_cmp f t ts n : ttype_eqb (t_type t) NOT_OP = false -> ttype_eqb (t_type t) LPARN = false ->
  starts_op (t :: ts) = Ok true -> d_exp U (S f) (t :: ts) n = d_cmp (t :: ts) n.
Proof. intros E1 E2 E3. cbn [d_exp dcur cur of_res dbind]. rewrite E1, E2, E3. reflexivity. Qed.
Lemma cmp_head u l o rest : g_var u l -> t_type o = OP -> exists t ts, u ++ o :: rest = t :: ts /\
  ttype_eqb (t_type t) NOT_OP = false /\ ttype_eqb (t_type t) LPARN = false /\ starts_op (t :: ts) = Ok true.
Proof.
  intros [u' a H|u' a H|u' a H] Ho.
  - apply g_atomic_head in H as (t & -> & H). exists t, (o :: rest).
    repeat split; try (apply is_atomic_type_neq; auto; reflexivity).
    unfold starts_op. cbn [cur bind peek]. rewrite (is_atomic_type_neq t LSET) by auto. cbn [bind].
    unfold is_const. rewrite H, Ho. cbn. now rewrite orb_true_r.
  - apply g_set_head in H as (t & w & -> & H). exists t, (w ++ o :: rest). rewrite H. repeat split. now apply starts_op_lset.
  - apply g_att_head in H as (t & -> & H). exists t, (o :: rest).
    repeat split; try (apply is_att_type_neq; auto; reflexivity).
    unfold starts_op. cbn [cur bind peek]. rewrite (is_att_type_neq t LSET) by auto. cbn [bind]. now rewrite H, Ho.
Qed.
Lemma lset_exp f s rest n : (exists lb s', s = lb :: s' /\ t_type lb = LSET) -> d_exp U (S f) (s ++ rest) n = d_cmp (s ++ rest) n.
Proof. intros (lb & s' & -> & Hl). apply d_exp_cmp; try (rewrite Hl; reflexivity). now apply starts_op_lset. Qed.

(** [t] is no comparison operator where one might have continued an attribute. *)
Definition no_op (k : wait) (t : token) : Prop := match k with WClose _ | WFinish => t_type t <> OP | _ => True end.

Lemma inner_run x k u t y r : inner x k -> Forall bool_ok x -> ~ allowed u k t -> no_op k t ->
  exists f0, forall f n, (f0 <= f)%nat -> d_exp U f (x ++ t :: y :: r) n = DSyn (say k t).
Proof.
  intros Hx Hb Hn Hno. destruct Hx as [|nt Hnt|s k Hs|s q Hs|l q o Hl Ho|l q o s k Hl Ho Hs|p lp w q Hp Hw].
  - exists 1%nat. intros [|f] n Hf; [lia|]. cbn [allowed] in Hn. unfold attribute, constant in Hn. unfold say. cbn [wording rule_of].
    cbn [app d_exp dcur cur of_res dbind].
    assert (A : is_att t = false) by (apply not_true; intros E; apply attribute_att in E; apply Hn; auto).
    assert (C : is_atomic t = false) by (apply not_true; intros E; apply constant_atomic in E; apply Hn; auto).
    assert (T : forall ty, In ty [NOT_OP; LPARN; LSET; BOOL] -> ttype_eqb (t_type t) ty = false).
    { intros ty Hy. apply not_true. intros E. apply ttype_eqb_eq in E. apply Hn. left. now rewrite E. }
    rewrite !T by (cbn; auto). unfold starts_op. cbn [cur bind peek]. rewrite T by (cbn; auto). cbn [bind of_res].
    unfold is_const. rewrite A, C, T by (cbn; auto). cbn [orb]. rewrite andb_false_r. cbn [dbind]. reflexivity.
  - exists 1%nat. intros [|f] n Hf; [lia|]. cbn [allowed] in Hn.
    cbn [app d_exp dcur cur of_res dbind]. rewrite Hnt. cbn [ttype_eqb ttype_val N.eqb Pos.eqb].
    rewrite eat_yes by now rewrite Hnt. cbn [dbind dcur cur of_res].
    assert (ttype_eqb (t_type t) LPARN = false) as -> by (apply not_true; intros E; apply ttype_eqb_eq in E; apply Hn; cbn; auto).
    unfold d_bool_var. cbn [dcur cur of_res dbind].
    assert (ttype_eqb (t_type t) BOOL = false) as -> by (apply not_true; intros E; apply ttype_eqb_eq in E; apply Hn; cbn; auto).
    rewrite att_refused; [reflexivity|]. apply not_true; intros E; apply attribute_att in E; apply Hn; auto.
  - exists 1%nat. intros [|f] n Hf; [lia|]. rewrite lset_exp by (destruct Hs; eauto). unfold d_cmp.
    rewrite (d_var_set _ _ _ _ Hs). now rewrite (set_run _ _ _ _ _ u Hs Hn).
  - exists 1%nat. intros [|f] n Hf; [lia|]. rewrite lset_exp by (apply g_set_head in Hs as (lb & v & -> & ?); eauto).
    unfold d_cmp. destruct (d_var_run s q (t :: y :: r) n (gv_set _ _ Hs)) as (a & n' & ->). cbn [dbind allowed] in Hn |- *.
    rewrite eat_no by (apply not_true; intros E; apply ttype_eqb_eq in E; auto). reflexivity.
  - exists 1%nat. intros [|f] n Hf; [lia|]. rewrite <- app_assoc. cbn [app].
    destruct (cmp_head l q o (t :: y :: r) Hl Ho) as (h & ts & E & E1 & E2 & E3). rewrite E, d_exp_cmp by auto. rewrite <- E.
    unfold d_cmp. destruct (d_var_run l q (o :: t :: y :: r) n Hl) as (a & n' & ->). cbn [dbind allowed] in Hn |- *.
    rewrite eat_yes by now rewrite Ho. cbn [dbind]. unfold d_var at 1. cbn [dcur cur of_res dbind].
    assert (A : is_att t = false) by (apply not_true; intros X; apply attribute_att in X; apply Hn; auto).
    assert (C : is_atomic t = false) by (apply not_true; intros X; apply constant_atomic in X; apply Hn; auto).
    unfold is_const. rewrite A, C. assert (ttype_eqb (t_type t) LSET = false) as -> by (apply not_true; intros X; apply ttype_eqb_eq in X; apply Hn; auto).
    reflexivity.
  - exists 1%nat. intros [|f] n Hf; [lia|]. rewrite <- app_assoc. cbn [app].
    destruct (cmp_head l q o (s ++ t :: y :: r) Hl Ho) as (h & ts & E & E1 & E2 & E3). rewrite E, d_exp_cmp by auto. rewrite <- E.
    unfold d_cmp. destruct (d_var_run l q (o :: s ++ t :: y :: r) n Hl) as (a & n' & ->). cbn [dbind].
    rewrite eat_yes by now rewrite Ho. cbn [dbind]. rewrite (d_var_set _ _ _ _ Hs). now rewrite (set_run _ _ _ _ _ u Hs Hn).
  - apply Forall_app in Hb as [_ Hb]. destruct (d_policy_done _ _ Hw Hb) as (f0 & H). cbn [allowed no_op] in Hn, Hno.
    assert (Fo : follow_or (t :: y :: r)).
    { cbn. unfold joins in Hn. repeat split; auto; intros X; apply Hn; auto. }
    assert (Er : ttype_eqb (t_type t) RPARN = false) by (apply not_true; intros X; apply ttype_eqb_eq in X; apply Hn; auto).
    exists (S f0). intros [|f] n Hf; [lia|]. destruct (H f (t :: y :: r) n) as (a & n' & E); [lia|auto|].
    destruct Hp as [lp Hl|nt lp Hnt Hl]; cbn [app].
    + rewrite d_exp_paren by auto. rewrite E. cbn [dbind]. now rewrite eat_no by auto.
    + rewrite d_exp_not_paren by auto. rewrite E. cbn [dbind]. now rewrite eat_no by auto.
Qed.

Lemma waits_run u k t y r last : waits u k -> Forall bool_ok u -> ~ allowed u k t -> no_op k t ->
  d_parse U (u ++ t :: y :: r) last = DSyn (say k t).
Proof.
  intros H Hb Hn Hno. destruct H as [s v x k Hs Hv Hx|s w q Hs Hw].
  - cbn [app]. rewrite <- app_assoc. inversion Hb as [|? ? _ Hb2]; subst. apply Forall_app in Hb2 as [Hb1 Hb2].
    destruct (d_pre_run (x ++ t :: y :: r) (say k t)) as (_ & _ & P); [eapply inner_run; eauto|].
    destruct (P v Hv Hb1) as (f0 & H). unfold d_parse. rewrite eat_yes by now rewrite Hs. cbn [dbind].
    rewrite <- (d_policy_parse s _ last (f0 + parse_fuel (s :: v ++ x ++ t :: y :: r))) by lia. now rewrite H by lia.
  - cbn [app]. inversion Hb as [|? ? _ Hb2]; subst. destruct (d_policy_done _ _ Hw Hb2) as (f0 & H).
    cbn [allowed no_op] in Hn, Hno. unfold d_parse. rewrite eat_yes by now rewrite Hs. cbn [dbind].
    rewrite <- (d_policy_parse s _ last (f0 + parse_fuel (s :: w ++ t :: y :: r))) by lia.
    destruct (H (f0 + parse_fuel (s :: w ++ t :: y :: r))%nat (t :: y :: r) last) as (a & n' & ->); [lia| |].
    { cbn. unfold joins in Hn. repeat split; auto; intros X; apply Hn; auto. }
    cbn [dbind]. rewrite eat_no by (apply not_true; intros X; apply ttype_eqb_eq in X; apply Hn; auto). reflexivity.
Qed.
End WithUnicode.
