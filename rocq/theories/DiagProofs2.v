(** * DiagProofs2: where and how the parser with messages fails *)

From Coq Require Import NArith ZArith List Bool Lia String.
From Verif Require Import PyBase PyNum Lexer LexSpec LexProps Values Ast Parser Grammar ParseProofs ParseProofs2 ParseProps ParsePos AttCert Errors Diag DiagProofs DiagSpec.
Import ListNotations.
Open Scope Z_scope.

Definition say (k : wait) (t : token) : perror :=
  PErr (wording k (type_name (t_type t)) (t_pos t)) (t_pos t) t (rule_of k).

Lemma dbind_syn {A B} (m : dres A) (f : A -> dres B) e :
  dbind m f = DSyn e -> m = DSyn e \/ exists a, m = DOk a /\ f a = DSyn e.
Proof. destruct m; cbn; intros H; [right; eauto|left; congruence|discriminate]. Qed.
Lemma of_res_syn {A} (m : res A) e : of_res m = DSyn e -> False.
Proof. destruct m; discriminate. Qed.
Lemma of_res_ok {A} (m : res A) a : of_res m = DOk a <-> m = Ok a.
Proof. destruct m; cbn; split; congruence. Qed.
Lemma forget_ok {A} (m : dres A) a r : forget m = r -> m = DOk a -> r = Ok a.
Proof. intros <- ->. reflexivity. Qed.

Section WithUnicode.
Variable U : unicode.

Lemma eat_syn ty rule msg ts e : d_eat ty rule msg ts = DSyn e ->
  exists t r, ts = t :: r /\ t_type t <> ty /\
    e = PErr (match msg with Some m => m t
              | None => lit "Parse Error, expected " ++ type_name ty ++ lit " token but encountered " ++ type_name (t_type t) ++ lit "."
              end) (t_pos t) t (lit rule).
Proof.
  destruct ts as [|t r]; [discriminate|]. unfold d_eat. cbn [dcur cur of_res dbind].
  destruct (ttype_eqb (t_type t) ty) eqn:E; [discriminate|]. intros [= <-]. exists t, r. apply ttype_eqb_neq in E. auto.
Qed.
Lemma d_eat_ok ty rule msg ts t r : d_eat ty rule msg ts = DOk (t, r) -> ts = t :: r /\ t_type t = ty.
Proof. intros H. apply eat_ok. eapply forget_ok; [apply (forget_eat ty rule msg)|exact H]. Qed.

Lemma leaf_syn ty c rule msg ts n e : d_leaf U ty c rule msg ts n = DSyn e -> d_eat ty rule msg ts = DSyn e.
Proof.
  intros H. apply dbind_syn in H as [H|([t r] & _ & H)]; auto.
  apply dbind_syn in H as [H|([nd n'] & _ & H)]; [now apply of_res_syn in H|discriminate].
Qed.

Lemma att_syn ts n e : d_att_name U ts n = DSyn e -> exists t r, ts = t :: r /\ e = say WNegated t.
Proof.
  destruct ts as [|t r]; [discriminate|]. unfold d_att_name. cbn [dcur cur of_res dbind]. intros H. exists t, r. split; auto.
  destruct (t_type t) eqn:E; apply leaf_syn in H; apply eat_syn in H as (t' & r' & [= <- <-] & Hn & ->);
    rewrite E in *; try congruence; unfold say; cbn [wording rule_of]; rewrite E; reflexivity.
Qed.
Lemma atomic_syn ts n e b : d_atomic U ts n = DSyn e -> exists t r, ts = t :: r /\ e = say (WElement b) t.
Proof.
  destruct ts as [|t r]; [discriminate|]. unfold d_atomic. cbn [dcur cur of_res dbind]. intros H. exists t, r. split; auto.
  destruct (t_type t) eqn:E; apply leaf_syn in H; apply eat_syn in H as (t' & r' & [= <- <-] & Hn & ->);
    rewrite E in *; try congruence; unfold say; cbn [wording rule_of]; rewrite E; reflexivity.
Qed.
Lemma d_atomic_ok ts n a r m : d_atomic U ts n = DOk (a, r, m) -> exists u p, ts = u ++ r /\ g_atomic u p.
Proof.
  intros H. assert (K : atomic_rule U ts n = Ok (a, r, m)) by (eapply forget_ok; [apply forget_atomic|exact H]).
  apply atomic_rule_ok in K as (u & p & -> & K & _). eauto.
Qed.
Lemma bool_var_syn ts n e : d_bool_var U ts n = DSyn e -> exists t r, ts = t :: r /\ e = say WNegated t /\ t_type t <> BOOL /\ is_att t = false.
Proof.
  destruct ts as [|t r]; [discriminate|]. unfold d_bool_var. cbn [dcur cur of_res dbind].
  destruct (ttype_eqb (t_type t) BOOL) eqn:E; intros H.
  - apply leaf_syn in H. rewrite eat_yes in H by auto. discriminate.
  - pose proof H as K. apply att_syn in H as (t' & r' & [= <- <-] & ->). exists t, r. apply ttype_eqb_neq in E. repeat split; auto.
    destruct (is_att t) eqn:A; auto. exfalso. unfold d_att_name in K. cbn [dcur cur of_res dbind] in K.
    unfold is_att in A. destruct (t_type t) eqn:Et; try discriminate; apply leaf_syn in K;
      rewrite eat_yes in K by (rewrite Et; reflexivity); discriminate.
Qed.

(** The tail of a set after an element. *)
Definition in_tail (u : list token) (k : wait) : Prop :=
  (exists l, g_tail u l /\ k = WComma) \/ (exists u0 c l, u = u0 ++ [c] /\ g_tail u0 l /\ t_type c = COMMA /\ k = WElement false).
Lemma set_loop_syn f : forall ts n e, d_set_loop U f ts n = DSyn e ->
  exists u t r k, ts = u ++ t :: r /\ in_tail u k /\ e = say k t.
Proof.
  induction f as [|f IH]; intros ts n e H; [discriminate|]. destruct ts as [|t ts]; [discriminate|].
  cbn [d_set_loop dcur cur of_res dbind] in H. destruct (ttype_eqb (t_type t) RSET); [discriminate|].
  apply dbind_syn in H as [H|([c ts1] & Hc & H)].
  - apply eat_syn in H as (t' & r & [= <- <-] & _ & ->). exists [], t, ts, WComma. repeat split; auto. left. exists []. split; [constructor|auto].
  - apply d_eat_ok in Hc as [[= <- <-] Hc]. apply dbind_syn in H as [H|([[a ts2] n1] & Ha & H)].
    + apply (atomic_syn _ _ _ false) in H as (x & r & -> & ->). exists [t], x, r, (WElement false). repeat split; auto.
      right. exists [], t, []. repeat split; auto. constructor.
    + apply dbind_syn in H as [H|([[nds ts3] n2] & _ & H)]; [|discriminate]. apply d_atomic_ok in Ha as (v & p & -> & Ha).
      apply IH in H as (u & x & r & k & -> & Hk & ->). exists (t :: v ++ u), x, r, k.
      cbn. rewrite <- app_assoc. repeat split; auto.
      destruct Hk as [(l & Hl & ->)|(u0 & c & l & -> & Hl & Hc2 & ->)].
      * left. exists (p :: l). split; auto. now constructor.
      * right. exists (t :: v ++ u0), c, (p :: l). cbn. rewrite <- app_assoc. repeat split; auto. now constructor.
Qed.

Lemma d_set_loop_rset f : forall ts n l r m, d_set_loop U f ts n = DOk (l, r, m) -> exists t r', r = t :: r' /\ t_type t = RSET.
Proof.
  induction f as [|f IH]; intros ts n l r m H; [discriminate|]. destruct ts as [|t ts]; [discriminate|].
  cbn [d_set_loop dcur cur of_res dbind] in H. destruct (ttype_eqb (t_type t) RSET) eqn:E.
  - injection H as <- <- <-. exists t, ts. apply ttype_eqb_eq in E. auto.
  - destruct (d_eat COMMA _ _ _) as [[c ts1]| |]; [|discriminate|discriminate]. cbn [dbind] in H.
    destruct (d_atomic U ts1 n) as [[[a ts2] n1]| |]; [|discriminate|discriminate]. cbn [dbind] in H.
    destruct (d_set_loop U f ts2 n1) as [[[nds ts3] n2]| |] eqn:L; [|discriminate|discriminate]. cbn [dbind] in H.
    injection H as <- <- <-. eauto.
Qed.

Lemma set_syn ts n e : (exists t r, ts = t :: r /\ t_type t = LSET) -> d_set U ts n = DSyn e ->
  exists s t r k, ts = s ++ t :: r /\ in_set s k /\ e = say k t.
Proof.
  intros (lb & ts1 & -> & Hlb) H. unfold d_set in H. rewrite eat_yes in H by now rewrite Hlb. cbn [dbind] in H.
  destruct ts1 as [|t ts1]; [discriminate|]. cbn [dcur cur of_res dbind] in H.
  destruct (ttype_eqb (t_type t) RSET) eqn:E.
  - cbn [dbind] in H. rewrite eat_yes in H by auto. cbn [dbind] in H.
    apply dbind_syn in H as [H|([nd n'] & _ & H)]; [now apply of_res_syn in H|discriminate].
  - apply dbind_syn in H as [H|([[nds ts2] n1] & Hs & H)].
    + apply dbind_syn in H as [H|([[a ts2] n1] & Ha & H)].
      * apply (atomic_syn _ _ _ true) in H as (x & r & E1 & ->). exists [lb], x, r, (WElement true). rewrite E1.
        repeat split; auto. now constructor.
      * apply dbind_syn in H as [H|([[nds ts3] n2] & _ & H)]; [|discriminate]. apply d_atomic_ok in Ha as (v & p & -> & Ha).
        apply set_loop_syn in H as (u & x & r & k & -> & Hk & ->). exists (lb :: v ++ u), x, r, k. cbn.
        rewrite <- app_assoc. repeat split; auto. destruct Hk as [(l & Hl & ->)|(u0 & c & l & -> & Hl & Hc & ->)].
        -- eapply is_comma; auto. apply setval_tail. exists v, u, p, l. auto.
        -- rewrite app_assoc. eapply is_next; auto. apply setval_tail. exists v, u0, p, l. auto.
    + exfalso. destruct (d_atomic U (t :: ts1) n) as [[[a ts3] n3]| |]; [|discriminate|discriminate]. cbn [dbind] in Hs.
      destruct (d_set_loop U _ ts3 n3) as [[[l ts4] n4]| |] eqn:L; [|discriminate|discriminate]. cbn [dbind] in Hs.
      injection Hs as <- <- <-. apply d_set_loop_rset in L as (x & r & -> & Hx). rewrite eat_yes in H by now rewrite Hx.
      cbn [dbind] in H. apply dbind_syn in H as [H|([nd n'] & _ & H)]; [now apply of_res_syn in H|discriminate].
Qed.

Lemma att_fine t r n e : is_att t = true -> d_att_name U (t :: r) n = DSyn e -> False.
Proof.
  intros A H. unfold d_att_name in H. cbn [dcur cur of_res dbind] in H.
  unfold is_att in A. destruct (t_type t) eqn:E; try discriminate; apply leaf_syn in H;
    rewrite eat_yes in H by (rewrite E; reflexivity); discriminate.
Qed.
Lemma atomic_fine t r n e : is_atomic t = true -> d_atomic U (t :: r) n = DSyn e -> False.
Proof.
  intros A H. unfold d_atomic in H. cbn [dcur cur of_res dbind] in H.
  unfold is_atomic in A. destruct (t_type t) eqn:E; try discriminate; apply leaf_syn in H;
    rewrite eat_yes in H by (rewrite E; reflexivity); discriminate.
Qed.
Lemma var_syn ts n e : d_var U ts n = DSyn e ->
  (exists t r, ts = t :: r /\ is_att t = false /\ is_const t = false /\ e = say WOperand t) \/
  exists s t r k, ts = s ++ t :: r /\ in_set s k /\ e = say k t.
Proof.
  destruct ts as [|t r]; [discriminate|]. unfold d_var. cbn [dcur cur of_res dbind].
  destruct (is_att t) eqn:A; [intros H; now apply att_fine in H|]. destruct (is_const t) eqn:C.
  - unfold d_const. cbn [dcur cur of_res dbind]. destruct (is_atomic t) eqn:B; [intros H; now apply atomic_fine in H|].
    intros H. right. apply set_syn in H; auto. unfold is_const in C. rewrite B in C. cbn in C. apply ttype_eqb_eq in C. eauto.
  - intros [= <-]. left. exists t, r. repeat split; auto.
Qed.

(** Where a comparison starts, its left side is a set or the operator is there. *)
Lemma var_then_op u q x r : g_var u q -> starts_op (u ++ x :: r) = Ok true -> g_set u q \/ t_type x = OP.
Proof.
  intros [u' a H|u' a H|u' a H] Hs; [right|now left|right].
  - apply g_atomic_head in H as (t & -> & H). unfold starts_op in Hs. cbn [app cur bind peek] in Hs.
    rewrite (is_atomic_type_neq t LSET) in Hs by auto. cbn [bind] in Hs. injection Hs as Hs. apply andb_prop in Hs as [Hs _].
    now apply ttype_eqb_eq.
  - apply g_att_head in H as (t & -> & H). unfold starts_op in Hs. cbn [app cur bind peek] in Hs.
    rewrite (is_att_type_neq t LSET) in Hs by auto. cbn [bind] in Hs. injection Hs as Hs. apply andb_prop in Hs as [Hs _].
    now apply ttype_eqb_eq.
Qed.

(** The run fails inside the expression after [v]. *)
Definition blames (P : list token -> Prop) (ts : list token) (e : perror) : Prop :=
  exists v x t r k, ts = v ++ x ++ t :: r /\ P v /\ inner x k /\ e = say k t.
Lemma blames_seq (P P2 : list token -> Prop) ts s r e :
  blames P2 r e -> ts = s ++ r -> (forall u, P2 u -> P (s ++ u)) -> blames P ts e.
Proof.
  intros (v & x & t & r' & k & -> & H & Hk & ->) -> I. exists (s ++ v), x, t, r', k. rewrite <- app_assoc. auto.
Qed.

Lemma rules_syn f :
  (forall ts n e, d_exp U f ts n = DSyn e -> blames pre_exp ts e) /\
  (forall a0 ts n e, d_term_loop U f a0 ts n = DSyn e -> forall v l, g_term v l -> blames (fun u => pre_term (v ++ u)) ts e) /\
  (forall ts n e, d_term U f ts n = DSyn e -> blames pre_term ts e) /\
  (forall a0 ts n e, d_policy_loop U f a0 ts n = DSyn e -> forall v l, g_policy v l -> blames (fun u => pre_policy (v ++ u)) ts e) /\
  (forall ts n e, d_policy U f ts n = DSyn e -> blames pre_policy ts e).
Proof.
  induction f as [|f (IHe & IHtl & IHt & IHpl & IHp)]; [repeat split; discriminate|].
  assert (Sound : forall ts n a r m, d_policy U f ts n = DOk (a, r, m) -> exists u q, ts = u ++ r /\ g_policy u q).
  { intros ts n a r m H. assert (K : policy_rule U f ts n = Ok (a, r, m)) by (eapply forget_ok; [apply forget_rules|exact H]).
    apply rules_sound in K as (u & q & E & Hq & _). eauto. }
  assert (SoundT : forall ts n a r m, d_term U f ts n = DOk (a, r, m) -> exists u q, ts = u ++ r /\ g_term u q).
  { intros ts n a r m H. assert (K : term_rule U f ts n = Ok (a, r, m)) by (eapply forget_ok; [apply forget_rules|exact H]).
    apply rules_sound in K as (u & q & E & Hq & _). eauto. }
  assert (SoundE : forall ts n a r m, d_exp U f ts n = DOk (a, r, m) -> exists u q, ts = u ++ r /\ g_exp u q).
  { intros ts n a r m H. assert (K : exp_rule U f ts n = Ok (a, r, m)) by (eapply forget_ok; [apply forget_rules|exact H]).
    apply rules_sound in K as (u & q & E & Hq & _). eauto. }
  assert (SoundV : forall ts n a r m, d_var U ts n = DOk (a, r, m) -> exists u q, ts = u ++ r /\ g_var u q).
  { intros ts n a r m H. assert (K : var_rule U ts n = Ok (a, r, m)) by (eapply forget_ok; [apply forget_var|exact H]).
    apply var_rule_ok in K as (u & q & E & Hq & _). eauto. }
  assert (Paren : forall p lp r n e, opens (p ++ [lp]) lp ->
      ('(lp, ts2) <% d_eat LPARN "exp" None (lp :: r) ;;
       '(s, ts3, n1) <% d_policy U f ts2 n ;;
       '(_, ts4) <% d_eat RPARN "exp" (Some (paren_msg lp)) ts3 ;; DOk (s, ts4, n1)) = DSyn e ->
      blames pre_exp (p ++ lp :: r) e).
  { intros p lp r n e Ho H.
    assert (Hl : t_type lp = LPARN) by (inversion Ho; auto).
    rewrite eat_yes in H by now rewrite Hl. cbn [dbind] in H.
    apply dbind_syn in H as [H|([[s ts3] n1] & H1 & H)].
    - apply IHp in H. apply (blames_seq _ _ _ (p ++ [lp]) r _ H); [now rewrite <- app_assoc|]. intros u Hu.
      inversion Ho as [lp' Hl' E|nt lp' Hnt Hl' E]; [now apply pe_paren|now apply pe_not_paren].
    - apply dbind_syn in H as [H|([x ts4] & _ & H)]; [|discriminate]. apply Sound in H1 as (u & q & -> & Hq).
      apply eat_syn in H as (t & r & -> & _ & ->). exists [], ((p ++ [lp]) ++ u), t, r, (WClose lp). cbn [app].
      repeat split; [now rewrite <- !app_assoc|constructor|eapply in_close; eauto]. }
  repeat split.
  - intros ts n e H. destruct ts as [|t ts]; [discriminate|]. cbn [d_exp dcur cur of_res dbind] in H.
    destruct (ttype_eqb (t_type t) NOT_OP) eqn:En.
    + rewrite eat_yes in H by auto. cbn [dbind] in H. apply ttype_eqb_eq in En. destruct ts as [|t1 r]; [discriminate|].
      cbn [dcur cur of_res dbind] in H. apply dbind_syn in H as [H|([[s ts2] n1] & _ & H)].
      * destruct (ttype_eqb (t_type t1) LPARN) eqn:El.
        -- apply ttype_eqb_eq in El. apply (Paren [t] t1 r n e); auto. now constructor.
        -- apply bool_var_syn in H as (x & r' & [= <- <-] & -> & _). exists [], [t], t1, r, WNegated.
           repeat split; [constructor|now constructor].
      * apply dbind_syn in H as [H|([nd n'] & _ & H)]; [now apply of_res_syn in H|discriminate].
    + destruct (ttype_eqb (t_type t) LPARN) eqn:El.
      * apply ttype_eqb_eq in El. apply (Paren [] t ts n e); auto. now constructor.
      * apply dbind_syn in H as [H|(g & Hg & H)]; [now apply of_res_syn in H|]. apply of_res_ok in Hg.
        destruct g.
        -- apply dbind_syn in H as [H|([[l ts1] n1] & Hl & H)].
           ++ apply var_syn in H as [(t' & r & [= <- <-] & A & C & ->)|(s & x & r & k & E & Hk & ->)].
              ** exfalso. unfold starts_op in Hg. cbn [cur bind] in Hg. destruct (ttype_eqb (t_type t) LSET) eqn:E.
                 --- unfold is_const in C. rewrite E, orb_true_r in C. discriminate.
                 --- destruct (peek (t :: ts)) as [[y|]|]; cbn [bind] in Hg; try discriminate. rewrite A, C in Hg.
                     cbn in Hg. rewrite andb_false_r in Hg. discriminate.
              ** rewrite E. exists [], s, x, r, k. repeat split; [constructor|now constructor].
           ++ apply SoundV in Hl as (u & q & E & Hq). rewrite E. rewrite E in Hg. apply dbind_syn in H as [H|([o ts2] & Ho & H)].
              ** apply eat_syn in H as (x & r & -> & Hx & ->). exists [], u, x, r, WOperator. repeat split; [constructor|].
                 destruct (var_then_op _ _ _ _ Hq Hg) as [S|S]; [eapply in_operator; exact S|contradiction].
              ** apply d_eat_ok in Ho as [-> Ho]. apply dbind_syn in H as [H|([[r ts3] n2] & _ & H)].
                 --- apply var_syn in H as [(x & r & -> & _ & _ & ->)|(s & x & r & k & -> & Hk & ->)].
                     +++ exists [], (u ++ [o]), x, r, WOperand. cbn [app]. rewrite <- app_assoc. repeat split; [constructor|].
                         eapply in_operand; eauto.
                     +++ exists [], (u ++ o :: s), x, r, k. cbn [app]. rewrite <- app_assoc. repeat split; [constructor|].
                         eapply in_right; eauto.
                 --- apply dbind_syn in H as [H|([nd n'] & _ & H)]; [now apply of_res_syn in H|discriminate].
        -- destruct (ttype_eqb (t_type t) BOOL || is_att t) eqn:B.
           ++ apply bool_var_syn in H as (x & r & [= <- <-] & _ & N1 & N2). apply ttype_eqb_neq in N1. rewrite N1, N2 in B. discriminate.
           ++ injection H as <-. exists [], [], t, ts, WStart. repeat split; constructor.
  - intros a0 ts n e H v l Hv. destruct ts as [|t r]; [discriminate|]. cbn [d_term_loop dcur cur of_res dbind] in H.
    destruct (is_bool_op "AND" t) eqn:E; [|discriminate]. pose proof E as E'. apply is_bool_op_word in E'.
    rewrite eat_yes in H by now apply andb_prop in E as [E _]. cbn [dbind] in H.
    apply dbind_syn in H as [H|([[e1 ts2] n1] & H1 & H)].
    + apply IHe in H. apply (blames_seq _ _ _ [t] r _ H); auto. intros u Hu. cbn [app]. eapply pt_and; eauto.
    + apply SoundE in H1 as (u & q & -> & Hq). apply dbind_syn in H as [H|([nd n'] & _ & H)]; [now apply of_res_syn in H|].
      assert (Hv2 : g_term (v ++ t :: u) (PT CBoolOp t [l; q])) by now apply gt_and.
      pose proof (IHtl _ _ _ _ H _ _ Hv2) as B. apply (blames_seq _ _ _ (t :: u) ts2 _ B); auto.
      intros u2 Hu. now rewrite <- app_assoc in Hu.
  - intros ts n e H. cbn [d_term] in H. apply dbind_syn in H as [H|([[e1 ts1] n1] & H1 & H)].
    + apply IHe in H. apply (blames_seq _ _ _ [] ts _ H); auto. intros u Hu. now apply pt_first.
    + apply SoundE in H1 as (u & q & -> & Hq). assert (Hv : g_term u q) by now apply gt_exp.
      pose proof (IHtl _ _ _ _ H _ _ Hv) as B. apply (blames_seq _ _ _ u ts1 _ B); auto.
  - intros a0 ts n e H v l Hv. destruct ts as [|t r]; [discriminate|]. cbn [d_policy_loop dcur cur of_res dbind] in H.
    destruct (is_bool_op "OR" t) eqn:E; [|discriminate]. pose proof E as E'. apply is_bool_op_word in E'.
    rewrite eat_yes in H by now apply andb_prop in E as [E _]. cbn [dbind] in H.
    apply dbind_syn in H as [H|([[e1 ts2] n1] & H1 & H)].
    + apply IHt in H. apply (blames_seq _ _ _ [t] r _ H); auto. intros u Hu. cbn [app]. eapply pp_or; eauto.
    + apply SoundT in H1 as (u & q & -> & Hq). apply dbind_syn in H as [H|([nd n'] & _ & H)]; [now apply of_res_syn in H|].
      assert (Hv2 : g_policy (v ++ t :: u) (PT CBoolOp t [l; q])) by now apply gp_or.
      pose proof (IHpl _ _ _ _ H _ _ Hv2) as B. apply (blames_seq _ _ _ (t :: u) ts2 _ B); auto.
      intros u2 Hu. now rewrite <- app_assoc in Hu.
  - intros ts n e H. cbn [d_policy] in H. apply dbind_syn in H as [H|([[e1 ts1] n1] & H1 & H)].
    + apply IHt in H. apply (blames_seq _ _ _ [] ts _ H); auto. intros u Hu. now apply pp_first.
    + apply SoundT in H1 as (u & q & -> & Hq). assert (Hv : g_policy u q) by now apply gp_term.
      pose proof (IHpl _ _ _ _ H _ _ Hv) as B. apply (blames_seq _ _ _ u ts1 _ B); auto.
Qed.
End WithUnicode.
