(** * DiagProofs: the parser with messages and the parser without *)

From Coq Require Import NArith ZArith List Bool Lia String.
From Verif Require Import PyBase PyNum Lexer LexSpec LexProps Values Ast Parser Grammar ParseProofs ParseProofs2 ParseProps ParsePos AttCert Errors Diag.
Import ListNotations.
Open Scope Z_scope.

Lemma forget_bind {A B} (m : dres A) (f : A -> dres B) : forget (dbind m f) = (x <- forget m ;; forget (f x)).
Proof. destruct m; reflexivity. Qed.
Lemma forget_of_res {A} (m : res A) : forget (of_res m) = m.
Proof. destruct m; reflexivity. Qed.
Lemma bind_ext {A B} (m : res A) (f g : A -> res B) : (forall x, f x = g x) -> (x <- m ;; f x) = (x <- m ;; g x).
Proof. destruct m; cbn; auto. Qed.

Section WithUnicode.
Variable U : unicode.

Lemma forget_eat ty rule msg ts : forget (d_eat ty rule msg ts) = eat ty ts.
Proof. destruct ts as [|t r]; cbn; auto. destruct (ttype_eqb (t_type t) ty); auto. Qed.
Lemma eat_yes ty rule msg t r : ttype_eqb (t_type t) ty = true -> d_eat ty rule msg (t :: r) = DOk (t, r).
Proof. intros H. unfold d_eat. cbn. now rewrite H. Qed.

Ltac fb := rewrite ?forget_bind, ?forget_of_res, ?forget_eat; cbn [forget].

Lemma forget_leaf ty c rule msg ts n : forget (d_leaf U ty c rule msg ts n) =
  ('(t, r) <- eat ty ts ;; '(nd, n') <- mk_node U c t [] n ;; Ok (nd, r, n')).
Proof. unfold d_leaf. fb. apply bind_ext. intros [t r]. fb. apply bind_ext. now intros [nd n']. Qed.

Lemma forget_att ts n : forget (d_att_name U ts n) = att_name_rule U ts n.
Proof.
  destruct ts as [|t r]; [reflexivity|]. unfold d_att_name, att_name_rule. cbn [dcur cur of_res dbind bind].
  destruct (t_type t) eqn:E; rewrite forget_leaf; cbn [eat cur bind]; rewrite E; reflexivity.
Qed.
Lemma forget_atomic ts n : forget (d_atomic U ts n) = atomic_rule U ts n.
Proof.
  destruct ts as [|t r]; [reflexivity|]. unfold d_atomic, atomic_rule. cbn [dcur cur of_res dbind bind].
  destruct (t_type t) eqn:E; rewrite forget_leaf; cbn [eat cur bind]; rewrite E; reflexivity.
Qed.
Lemma forget_bool_var ts n : forget (d_bool_var U ts n) = bool_var_rule U ts n.
Proof.
  destruct ts as [|t r]; [reflexivity|]. unfold d_bool_var, bool_var_rule. cbn [dcur cur of_res dbind bind].
  destruct (ttype_eqb (t_type t) BOOL) eqn:E; [|apply forget_att].
  rewrite forget_leaf. cbn [eat cur bind]. rewrite E. reflexivity.
Qed.
Lemma forget_set_loop f : forall ts n, forget (d_set_loop U f ts n) = set_loop U f ts n.
Proof.
  induction f as [|f IH]; intros ts n; [reflexivity|]. cbn [d_set_loop set_loop]. unfold dcur. fb. apply bind_ext. intros t.
  destruct (ttype_eqb (t_type t) RSET); [reflexivity|]. fb. apply bind_ext. intros [x ts1]. fb.
  rewrite forget_atomic. apply bind_ext. intros [[nd ts2] n1]. fb. rewrite IH. apply bind_ext. now intros [[nds ts3] n2].
Qed.
Lemma forget_set ts n : forget (d_set U ts n) = set_rule U ts n.
Proof.
  unfold d_set, set_rule. fb. apply bind_ext. intros [ts0 ts1]. unfold dcur. fb. apply bind_ext. intros t. fb.
  replace (forget (if ttype_eqb (t_type t) RSET then _ else _)) with
    (if ttype_eqb (t_type t) RSET then Ok ([], ts1, n)
      else '(nd, ts2, n1) <- atomic_rule U ts1 n ;;
           '(nds, ts3, n2) <- set_loop U (List.length ts2 + 1) ts2 n1 ;;
           Ok (nd :: nds, ts3, n2)).
  - apply bind_ext. intros [[nds ts2] n1]. fb. apply bind_ext. intros [te ts3]. fb. apply bind_ext. now intros [nd n2].
  - destruct (ttype_eqb (t_type t) RSET); [reflexivity|]. symmetry. fb. rewrite forget_atomic. apply bind_ext.
    intros [[nd ts2] n1]. fb. rewrite forget_set_loop. apply bind_ext. now intros [[nds ts3] n2].
Qed.
Lemma forget_var ts n : forget (d_var U ts n) = var_rule U ts n.
Proof.
  destruct ts as [|t r]; [reflexivity|]. unfold d_var, var_rule. cbn [dcur cur of_res dbind bind].
  destruct (is_att t); [apply forget_att|]. destruct (is_const t); [|reflexivity].
  unfold d_const, const_rule. cbn [dcur cur of_res dbind bind]. destruct (is_atomic t); [apply forget_atomic|apply forget_set].
Qed.

Lemma forget_rules f :
  (forall ts n, forget (d_exp U f ts n) = exp_rule U f ts n) /\
  (forall a ts n, forget (d_term_loop U f a ts n) = term_loop U f a ts n) /\
  (forall ts n, forget (d_term U f ts n) = term_rule U f ts n) /\
  (forall a ts n, forget (d_policy_loop U f a ts n) = policy_loop U f a ts n) /\
  (forall ts n, forget (d_policy U f ts n) = policy_rule U f ts n).
Proof.
  induction f as [|f (IHe & IHtl & IHt & IHpl & IHp)]; [repeat split; reflexivity|].
  assert (Paren : forall t r n, t_type t = LPARN -> forget
      ('(lp, ts2) <% d_eat LPARN "exp" None (t :: r) ;;
       '(s, ts3, n1) <% d_policy U f ts2 n ;;
       '(_, ts4) <% d_eat RPARN "exp" (Some (paren_msg lp)) ts3 ;; DOk (s, ts4, n1)) =
      ('(s, ts2, n1) <- policy_rule U f r n ;; '(_, ts3) <- eat RPARN ts2 ;; Ok (s, ts3, n1))).
  { intros t r n E. rewrite eat_yes by now rewrite E. cbn [dbind]. fb. rewrite IHp. apply bind_ext. intros [[s ts3] n1].
    fb. apply bind_ext. now intros [x ts4]. }
  repeat split.
  - intros ts n. destruct ts as [|t r]; [reflexivity|]. cbn [d_exp exp_rule dcur cur of_res dbind bind].
    destruct (ttype_eqb (t_type t) NOT_OP) eqn:En.
    + rewrite eat_yes by auto. cbn [dbind tl]. destruct r as [|t1 r]; [reflexivity|]. cbn [dcur cur of_res dbind bind]. fb. cbn [tl].
      replace (forget (if ttype_eqb (t_type t1) LPARN then _ else _)) with
        (if ttype_eqb (t_type t1) LPARN then
             '(s, ts2, n1) <- policy_rule U f r n ;;
             '(_, ts3) <- eat RPARN ts2 ;; Ok (s, ts3, n1)
           else bool_var_rule U (t1 :: r) n).
      * apply bind_ext. intros [[s ts2] n1]. fb. apply bind_ext. now intros [nd n2].
      * destruct (ttype_eqb (t_type t1) LPARN) eqn:E1; symmetry; [|apply forget_bool_var]. apply Paren. now apply ttype_eqb_eq.
    + destruct (ttype_eqb (t_type t) LPARN) eqn:El; [apply Paren; now apply ttype_eqb_eq|]. fb. apply bind_ext. intros [|].
      * fb. rewrite forget_var. apply bind_ext. intros [[l ts1] n1]. fb. apply bind_ext. intros [o ts2]. fb.
        rewrite forget_var. apply bind_ext. intros [[r2 ts3] n2]. fb. apply bind_ext. now intros [nd n3].
      * destruct (ttype_eqb (t_type t) BOOL || is_att t); [apply forget_bool_var|reflexivity].
  - intros a ts n. destruct ts as [|t r]; [reflexivity|]. cbn [d_term_loop term_loop dcur cur of_res dbind bind tl].
    destruct (is_bool_op "AND" t) eqn:E; [|reflexivity]. rewrite eat_yes by now apply andb_prop in E as [E _].
    cbn [dbind]. fb. rewrite IHe. apply bind_ext. intros [[e ts2] n1]. fb. apply bind_ext. intros [nd n2]. apply IHtl.
  - intros ts n. cbn [d_term term_rule]. fb. rewrite IHe. apply bind_ext. intros [[e ts1] n1]. apply IHtl.
  - intros a ts n. destruct ts as [|t r]; [reflexivity|]. cbn [d_policy_loop policy_loop dcur cur of_res dbind bind tl].
    destruct (is_bool_op "OR" t) eqn:E; [|reflexivity]. rewrite eat_yes by now apply andb_prop in E as [E _].
    cbn [dbind]. fb. rewrite IHt. apply bind_ext. intros [[e ts2] n1]. fb. apply bind_ext. intros [nd n2]. apply IHpl.
  - intros ts n. cbn [d_policy policy_rule]. fb. rewrite IHt. apply bind_ext. intros [[e ts1] n1]. apply IHpl.
Qed.

Lemma forget_parse ts last : forget (d_parse U ts last) = parse U ts last.
Proof.
  destruct ts as [|t r]; [reflexivity|]. unfold d_parse, parse. fb. apply bind_ext. intros [x ts1]. fb.
  rewrite (proj2 (proj2 (proj2 (proj2 (forget_rules _))))). apply bind_ext. intros [[nd ts2] n1]. fb. apply bind_ext.
  now intros [y ts3].
Qed.


(** A ParserError comes with its message. *)
Definition told {A} (m : dres A) : Prop := forall p, m <> DExc (EParser p).
Lemma told_ok {A} (a : A) : told (DOk a).
Proof. intros p. discriminate. Qed.
Lemma told_syn {A} e : told (DSyn (A := A) e).
Proof. intros p. discriminate. Qed.
Lemma told_bind {A B} (m : dres A) (f : A -> dres B) : told m -> (forall a, told (f a)) -> told (dbind m f).
Proof. intros H Hf p. destruct m; cbn; [apply Hf|discriminate|]. intros [= ->]. exact (H p eq_refl). Qed.
Lemma told_cur ts : told (dcur ts).
Proof. destruct ts; intros p; discriminate. Qed.
Lemma told_node c t k n : told (of_res (mk_node U c t k n)).
Proof.
  intros p H. destruct (mk_node U c t k n) eqn:E; [discriminate|]. cbn in H. injection H as ->. now apply mk_node_parser in E.
Qed.
Lemma told_starts ts : told (of_res (starts_op ts)).
Proof.
  intros p. unfold starts_op. destruct ts as [|t [|t2 r]]; cbn [cur bind peek]; [discriminate| |].
  - destruct (ttype_eqb (t_type t) LSET); discriminate.
  - destruct (ttype_eqb (t_type t) LSET); discriminate.
Qed.
Lemma told_eat ty rule msg ts : told (d_eat ty rule msg ts).
Proof. apply told_bind; [apply told_cur|]. intros t. destruct (ttype_eqb (t_type t) ty); [apply told_ok|apply told_syn]. Qed.
Ltac told_step := first
  [ apply told_ok | apply told_syn | apply told_cur | apply told_node | apply told_starts | apply told_eat
  | apply told_bind; [|repeat match goal with |- forall _, _ => intro | x : _ * _ |- _ => destruct x end]
  | match goal with |- told (if ?b then _ else _) => destruct b end ].
Lemma told_leaf ty c rule msg ts n : told (d_leaf U ty c rule msg ts n).
Proof. unfold d_leaf. repeat told_step. Qed.
Lemma told_att ts n : told (d_att_name U ts n).
Proof. apply told_bind; [apply told_cur|]. intros t. destruct (t_type t); apply told_leaf. Qed.
Lemma told_atomic ts n : told (d_atomic U ts n).
Proof. apply told_bind; [apply told_cur|]. intros t. destruct (t_type t); apply told_leaf. Qed.
Lemma told_bool_var ts n : told (d_bool_var U ts n).
Proof. apply told_bind; [apply told_cur|]. intros t. destruct (ttype_eqb (t_type t) BOOL); [apply told_leaf|apply told_att]. Qed.
Lemma told_fuel {A} : told (DExc (A := A) EFuel).
Proof. intros p. discriminate. Qed.
Lemma told_set_loop f : forall ts n, told (d_set_loop U f ts n).
Proof. induction f as [|f IH]; intros ts n; [apply told_fuel|]. cbn [d_set_loop]. repeat first [apply IH|apply told_atomic|told_step]. Qed.
Lemma told_set ts n : told (d_set U ts n).
Proof. unfold d_set. repeat first [apply told_set_loop|apply told_atomic|told_step]. Qed.
Lemma told_var ts n : told (d_var U ts n).
Proof. unfold d_var, d_const. repeat first [apply told_att|apply told_set|apply told_atomic|told_step]. Qed.
Lemma told_rules f :
  (forall ts n, told (d_exp U f ts n)) /\ (forall a ts n, told (d_term_loop U f a ts n)) /\ (forall ts n, told (d_term U f ts n)) /\
  (forall a ts n, told (d_policy_loop U f a ts n)) /\ (forall ts n, told (d_policy U f ts n)).
Proof.
  induction f as [|f (IHe & IHtl & IHt & IHpl & IHp)]; [repeat split; intros; apply told_fuel|].
  split; [|split; [|split; [|split]]]; intros; cbn [d_exp d_term_loop d_term d_policy_loop d_policy];
    repeat first [apply IHe|apply IHtl|apply IHt|apply IHpl|apply IHp|apply told_var|apply told_bool_var|told_step].
Qed.
Lemma told_parse ts last : told (d_parse U ts last).
Proof.
  unfold d_parse. destruct ts as [|t r]; [intros p; discriminate|]. repeat first [apply told_rules|told_step].
Qed.
End WithUnicode.
