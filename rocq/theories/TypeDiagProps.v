(** * TypeDiagProps: the messages of the type checker (C112) *)

From Coq Require Import NArith ZArith List Bool String Lia.
From Verif Require Import PyBase PyNum AttCert Errors ErrorProps ShowSpec ShowProofs3 BytesProofs ShownProps Lexer LexSpec LexProofs LexProofs2 LexProps Values Ast Parser Grammar ParseProofs ParseProofs2 Syntax
  PrintProofs ParseProps AbsProofs Symbols Interp EvalSpec EvalProofs EvalProofs2 SymbolProps TypeCheck TypeSpec TypeProofs TypeProps TypeDiag TypeDiagSpec TypeDiagProofs.
Import ListNotations.
Open Scope Z_scope.

(** check() called several times. *)
Fixpoint m_checks (U : unicode) (c : mchecker) (levels : list Z) : mchecker * list mresult :=
  match levels with
  | [] => (c, [])
  | lvl :: r => let '(c1, x) := m_check U c lvl in let '(c2, xs) := m_checks U c1 r in (c2, x :: xs)
  end.
Definition forget (r : mresult) : check_result :=
  match r with MReturned l => Returned (map fst l) | MRaised x => RaisedIssue (fst x) | MCrashed e => Crashed e end.

Lemma map_fst_combine {A B} (a : list A) (b : list B) : List.length a = List.length b -> map fst (combine a b) = a.
Proof. revert b. induction a as [|x a IH]; intros [|y b] E; try discriminate; cbn; [reflexivity|]. now rewrite IH by (cbn in E; lia). Qed.
Lemma find_fst {B} (f : issue -> bool) (l : list (issue * B)) : option_map fst (find (fun x => f (fst x)) l) = find f (map fst l).
Proof. induction l as [|x l IH]; [reflexivity|]. cbn. destruct (f (fst x)); [reflexivity|exact IH]. Qed.

Lemma m_check_same U c lvl : (* one message for each issue *)
  List.length (ts_issues (fst (scan_tree U (tc_state (mc_checker c)) (tc_ast (mc_checker c))))) =
    List.length (mc_msgs c ++ snd (m_scan_tree U (tc_state (mc_checker c)) (tc_ast (mc_checker c)))) ->
  let '(c', r) := m_check U c lvl in check U (mc_checker c) lvl = (mc_checker c', forget r).
Proof.
  intros L. unfold m_check, check. rewrite <- m_scan_fst in *.
  destruct (m_scan_tree U _ _) as [[st [e|]] ms]; cbn [fst snd] in *; [reflexivity|]. cbv zeta.
  unfold m_issues. cbn [mc_checker mc_msgs get_issues tc_state].
  pose proof (find_fst (fun i => lvl <=? is_type i) (combine (ts_issues st) (mc_msgs c ++ ms))) as F.
  rewrite map_fst_combine in F by exact L. unfold get_issues. cbn [tc_state].
  destruct (find _ (combine _ _)) as [x|]; cbn [option_map forget] in *; rewrite <- F; [reflexivity|].
  now rewrite map_fst_combine.
Qed.

Lemma parsed_said U text last a n' p levels : unicode_ok U -> parse_text U text last = Ok (a, n') ->
  abs (erase a) = Some p -> steady U (attributes p) ->
  let '(c', rs) := m_checks U (mchecker_new a) levels in
  let ks := times (List.length levels) (comparisons (erase a)) in
  checks U (checker_new a) levels = (mc_checker c', map forget rs) /\
  get_issues (mc_checker c') = issues U ks /\ mc_msgs c' = said_after U [] ks /\
  forall i r, nth_error rs i = Some r ->
    exists l x, l = combine (issues U (times (S i) (comparisons (erase a)))) (said_after U [] (times (S i) (comparisons (erase a)))) /\
      r = match x with Some y => MRaised y | None => MReturned l end /\
      exists lvl, nth_error levels i = Some lvl /\ x = find (fun x => lvl <=? is_type (fst x)) l.
Proof.
  intros uok H Ha Hn. pose proof (parsed_typed _ _ _ _ _ uok H) as Ht.
  assert (Hp : psteady U (attributes p)) by (apply Forall_forall; exact Hn).
  assert (G : forall levels c m, tc_ast (mc_checker c) = a ->
    tinv U (tc_state (mc_checker c)) (times m (attributes p)) (map abstract (times m (comparisons (erase a)))) (issues U (times m (comparisons (erase a)))) ->
    known_only U (times m (attributes p)) (map abstract (times m (comparisons (erase a)))) ->
    mc_msgs c = said_after U [] (times m (comparisons (erase a))) ->
    let '(c', rs) := m_checks U c levels in
    let ks := times (m + List.length levels) (comparisons (erase a)) in
    checks U (mc_checker c) levels = (mc_checker c', map forget rs) /\
    get_issues (mc_checker c') = issues U ks /\ mc_msgs c' = said_after U [] ks /\
    forall i r, nth_error rs i = Some r ->
      exists l x, l = combine (issues U (times (S (m + i)) (comparisons (erase a)))) (said_after U [] (times (S (m + i)) (comparisons (erase a)))) /\
        r = match x with Some y => MRaised y | None => MReturned l end /\
        exists lvl, nth_error levels i = Some lvl /\ x = find (fun x => lvl <=? is_type (fst x)) l).
  { clear levels. induction levels as [|lvl levels IH]; intros c m Ec I O M; cbn [m_checks checks List.length].
    - rewrite Nat.add_0_r. split; [reflexivity|]. split; [exact (ti_issues _ _ _ _ _ I)|]. split; [exact M|]. intros [|i] r; discriminate.
    - destruct (check_one U (mc_checker c) p m lvl eq_refl) as (c1 & E1 & Ea & _ & I1 & O1); rewrite ?Ec; try assumption.
      rewrite Ec in Ea, E1, I1, O1.
      pose proof (m_scan_said U a p _ _ _ _ I O Ha Ht Hp) as S.
      destruct (scan_pol U a p _ _ _ _ I O Ha Ht Hp) as (st' & Es & Is & _).
      assert (SM : mc_msgs c ++ snd (m_scan_tree U (tc_state (mc_checker c)) a) = said_after U [] (times (Datatypes.S m) (comparisons (erase a)))).
      { rewrite S, M. cbn [times]. now rewrite said_after_app. }
      assert (SI : issues U (times m (comparisons (erase a))) ++ issues_after U (map abstract (times m (comparisons (erase a)))) (comparisons (erase a)) =
        issues U (times (Datatypes.S m) (comparisons (erase a)))) by (unfold issues; cbn [times]; now rewrite issues_after_app).
      pose proof (m_check_same U c lvl) as Q. rewrite Ec, SM, Es in Q. cbn [fst] in Q.
      rewrite (ti_issues _ _ _ _ _ Is), SI in Q. specialize (Q (said_after_length U _ [])).
      destruct (m_check U c lvl) as [d x] eqn:Ed.
      assert (D : mc_checker d = c1 /\ mc_msgs d = said_after U [] (times (Datatypes.S m) (comparisons (erase a))) /\
        x = match find (fun x => lvl <=? is_type (fst x)) (m_issues d) with Some y => MRaised y | None => MReturned (m_issues d) end).
      { split; [congruence|]. unfold m_check in Ed. rewrite Ec in Ed. rewrite <- SM. pose proof (m_scan_fst U a (tc_state (mc_checker c))) as F. rewrite Es in F.
        destruct (m_scan_tree U _ _) as [o ms]. cbn [fst snd] in *. subst o. injection Ed as <- <-. auto. }
      destruct D as (D1 & D2 & D3). subst c1. rewrite Q.
      specialize (IH d (Datatypes.S m) Ea I1 O1 D2). rewrite Nat.add_succ_comm in IH.
      destruct (m_checks U d levels) as [c2 xs]. destruct IH as (J1 & J2 & J3 & J4). rewrite J1.
      split; [reflexivity|]. split; [exact J2|]. split; [exact J3|]. intros [|i] r Hr.
      + injection Hr as <-. rewrite Nat.add_0_r. eexists _, _. split; [reflexivity|]. split; [|exists lvl; split; reflexivity].
        rewrite D3. unfold m_issues, get_issues. now rewrite D2, (ti_issues _ _ _ _ _ I1).
      + rewrite <- Nat.add_succ_comm. now apply J4. }
  specialize (G levels (mchecker_new a) 0%nat eq_refl). cbn [times map plus] in G. apply G; [| |reflexivity].
  - split; cbn; auto. intros k l [].
  - intros x. now left.
Qed.

(** C112.  For any tree the checker with messages behaves as the one without: every issue has
    one message, and forgetting the messages gives the issues and outcomes of check(). *)
Theorem C112_same (U : unicode) (a : ast) (levels : list Z) :
  let '(c, rs) := m_checks U (mchecker_new a) levels in
  checks U (checker_new a) levels = (mc_checker c, map forget rs) /\ map fst (m_issues c) = get_issues (mc_checker c).
Proof.
  assert (Len : forall st n, List.length (ts_issues (fst (fst (m_att_check U st n)))) = (List.length (ts_issues st) + List.length (snd (m_att_check U st n)))%nat).
  { intros st n. unfold m_att_check. destruct (n_left n) as [l|]; [|cbn; lia]. destruct (n_right n) as [r|]; [|cbn; lia].
    destruct (is_att l && is_att r).
    - destruct (att_to_symbol_name _ _); [|cbn; lia]. destruct (att_to_symbol_name _ _); [|cbn; lia].
      destruct (st_lookup _ _ _); [|cbn; lia]. destruct (st_lookup _ _ _); [|cbn; lia]. cbv zeta.
      destruct (_ && _); cbn; rewrite ?app_length; cbn; lia.
    - destruct (if is_att l then _ else _) as [x v]. destruct (att_to_symbol_name _ _); [|cbn; lia]. cbv zeta.
      destruct (st_lookup _ _ _); [|cbn; lia]. destruct (symtype_eqb _ _).
      + destruct (st_switch_type _ _ _ _ _) as [[h b]|]; cbn; lia.
      + destruct (_ && _); cbn; rewrite ?app_length; cbn; lia. }
  assert (Op : forall st n, List.length (ts_issues (fst (fst (m_op_node U st n)))) = (List.length (ts_issues st) + List.length (snd (m_op_node U st n)))%nat).
  { intros st n. unfold m_op_node. destruct (t_val (n_tok n)); try (cbn; lia).
    unfold m_num_check, m_eq_check, m_in_check, m_subset_check.
    destruct (n_left n) as [l|], (n_right n) as [r|];
    repeat (match goal with |- context [if ?b then _ else _] => destruct b end); try apply Len; try (cbn; rewrite ?app_length; cbn; lia). }
  assert (Scan : forall n st, List.length (ts_issues (fst (fst (m_scan_tree U st n)))) = (List.length (ts_issues st) + List.length (snd (m_scan_tree U st n)))%nat).
  { induction n as [c t i r ks IH] using ast_ind'. intros st. rewrite m_scan_unfold.
    assert (K : forall st, List.length (ts_issues (fst (fst (m_kids U st ks)))) = (List.length (ts_issues st) + List.length (snd (m_kids U st ks)))%nat).
    { clear st. induction IH as [|k l Hk F IHl]; intros st; [cbn; lia|]. cbn [m_kids]. destruct (skipped k); [apply IHl|].
      specialize (Hk st). destruct (m_scan_tree U st k) as [[st' [x|]] ms]; cbn [fst snd] in *; [exact Hk|].
      specialize (IHl st'). destruct (m_kids U st' l) as [o ms']. cbn [fst snd] in *. rewrite app_length. lia. }
    specialize (K st). destruct (m_kids U st ks) as [[st1 [x|]] ms]; cbn [fst snd] in *; [exact K|].
    destruct (is_att_cls c).
    - cbn [fst snd]. rewrite <- K. unfold att_node. cbn [n_tok]. destruct (t_val t); try reflexivity.
      destruct (halloc _ _) as [h l]. destruct (st_define _ _ _ _); reflexivity.
    - destruct c; try exact K. specialize (Op st1 (Node COp t i r ks)). destruct (m_op_node U st1 _) as [o ms']. cbn [fst snd] in *. rewrite app_length. lia. }
  assert (G : forall levels c, List.length (ts_issues (tc_state (mc_checker c))) = List.length (mc_msgs c) ->
    let '(c', rs) := m_checks U c levels in
    checks U (mc_checker c) levels = (mc_checker c', map forget rs) /\ List.length (ts_issues (tc_state (mc_checker c'))) = List.length (mc_msgs c')).
  { clear levels. induction levels as [|lvl levels IH]; intros c L; cbn [m_checks checks]; [auto|].
    specialize (Scan (tc_ast (mc_checker c)) (tc_state (mc_checker c))).
    pose proof (m_check_same U c lvl) as Q. rewrite <- m_scan_fst, Scan, L, app_length in Q. specialize (Q eq_refl).
    assert (L' : List.length (ts_issues (tc_state (mc_checker (fst (m_check U c lvl))))) = List.length (mc_msgs (fst (m_check U c lvl)))).
    { unfold m_check. destruct (m_scan_tree U _ _) as [[st [e|]] ms]; cbn [fst snd mc_checker tc_state mc_msgs] in *; rewrite app_length; lia. }
    destruct (m_check U c lvl) as [c1 x]. rewrite Q. cbn [fst] in L'. specialize (IH c1 L'). destruct (m_checks U c1 levels) as [c2 xs].
    destruct IH as [J1 J2]. rewrite J1. auto. }
  specialize (G levels (mchecker_new a) eq_refl). destruct (m_checks U _ _) as [c rs]. destruct G as [G1 G2]. split; [exact G1|].
  unfold m_issues. now apply map_fst_combine.
Qed.
Print Assumptions C112_same.

(** After any number of calls of check() the issues with their messages are those of the policy's
    comparisons, written as often in a row. *)
Theorem C112_messages (U : unicode) (text : str) (last n' : Z) (a : ast) (p : pol) (levels : list Z) (xs : list (issue * str)) :
  unicode_ok U -> parse_text U text last = Ok (a, n') -> abs (erase a) = Some p -> steady U (attributes p) ->
  (m_issues (fst (m_checks U (mchecker_new a) levels)) = xs <-> remarks U [] (times (List.length levels) (comparisons (erase a))) xs).
Proof.
  intros uok H Ha Hn. pose proof (parsed_said U text last a n' p levels uok H Ha Hn) as Q.
  destruct (m_checks U _ levels) as [c rs]. destruct Q as (_ & Q2 & Q3 & _). cbn [fst].
  unfold m_issues. rewrite Q2, Q3, remarks_said. unfold issues. split; congruence.
Qed.
Print Assumptions C112_messages.

(** Each call raises the first of them that reaches its level, with its message, or returns all. *)
Theorem C112_levels (U : unicode) (text : str) (last n' : Z) (a : ast) (p : pol) (levels : list Z) (i : nat) (level : Z) :
  unicode_ok U -> parse_text U text last = Ok (a, n') -> abs (erase a) = Some p -> steady U (attributes p) ->
  nth_error levels i = Some level ->
  exists xs x, remarks U [] (times (S i) (comparisons (erase a))) xs /\ at_level level xs x /\
    nth_error (snd (m_checks U (mchecker_new a) levels)) i = Some (match x with Some y => MRaised y | None => MReturned xs end).
Proof.
  intros uok H Ha Hn Hl. pose proof (parsed_said U text last a n' p levels uok H Ha Hn) as Q.
  assert (Ln : forall lv c, List.length (snd (m_checks U c lv)) = List.length lv).
  { induction lv as [|x lv IH]; intros c; [reflexivity|]. cbn [m_checks]. destruct (m_check U c x) as [c1 y]. specialize (IH c1).
    destruct (m_checks U c1 lv). cbn in *. lia. }
  specialize (Ln levels (mchecker_new a)).
  destruct (m_checks U _ levels) as [c rs]. destruct Q as (_ & _ & _ & Q). cbn [snd] in *.
  destruct (nth_error rs i) as [r|] eqn:Er; [|apply nth_error_None in Er; assert (nth_error levels i <> None) as X by congruence; apply nth_error_Some in X; lia].
  destruct (Q i r Er) as (l & x & El & -> & lvl & Hl' & Ex). assert (lvl = level) by congruence. subst lvl.
  exists l, x. split; [now apply remarks_said|]. split; [|reflexivity]. subst x. clear.
  unfold at_level. induction l as [|y l IH]; cbn [find]; [intros x []|]. destruct (level <=? is_type (fst y)) eqn:E.
  - exists [], l. split; [reflexivity|]. split; [lia|intros z []].
  - destruct (find _ l) as [z|].
    + destruct IH as (l1 & l2 & -> & L & F). exists (y :: l1), l2. split; [reflexivity|]. split; [exact L|]. intros w [<-|Hw]; [lia|auto].
    + intros x [<-|Hx]; [lia|auto].
Qed.
Print Assumptions C112_levels.

Lemma inferred_from U ks c n t : inferred U ks (c, n) = t -> t <> ST_UNKNOWN -> exists k, In k ks /\ evidence U (c, n) k = Some t.
Proof.
  induction ks as [|k ks IH]; cbn; [congruence|]. destruct (evidence U (c, n) k) as [u|] eqn:E.
  - intros -> _. exists k. auto.
  - intros H N. destruct (IH H N) as (k' & I & E'). exists k'. auto.
Qed.

(** The grounds of a warning.  That an attribute is compared with different types is true: the
    constant of this comparison and that of an earlier one have types that clash. *)
Theorem C112_one (U : unicode) (before : list (cmp * operand * operand)) (k : comparison) (i : issue) (m : str) (c : cat) (n : str) (x : operand) :
  remark U before k (i, m) -> is_type i = 2 -> k_left k = OAtt c n /\ k_right k = x \/ k_left k = x /\ k_right k = OAtt c n -> kind_of x <> KAttribute ->
  m = lit "Possible type error with attribute " ++ att_key U (c, n) ++ lit ". Attribute compared with different types." /\
  exists k' t u, In k' before /\ evidence U (c, n) k' = Some t /\ const_type x = Some u /\ clash t u = true.
Proof.
  intros R T S N. inversion R as [m' _ E|m' I D W E]; subst; [discriminate T|].
  assert (X : exists u, const_type x = Some u /\ type_eqb (inferred U before (c, n)) ST_UNKNOWN = false /\ clash (inferred U before (c, n)) u = true).
  { unfold doubtful in D. destruct (op_class_of _); try discriminate D;
    (destruct S as [[S1 S2]|[S1 S2]]; rewrite S1, S2 in D; destruct x as [[]| |]; try (cbn in N; congruence); cbn in D;
     apply andb_prop in D as [D1 D2]; apply negb_true_iff in D1; eexists; repeat split; eauto). }
  destruct X as (u & X1 & X2 & X3). split.
  - apply dubious_doubt in W; [|eapply doubtful_att; eauto]. subst m.
    destruct S as [[-> ->]|[-> ->]]; destruct x as [[]| |]; try (cbn in N; congruence); reflexivity.
  - destruct (inferred_from U before c n (inferred U before (c, n)) eq_refl) as (k' & I1 & I2).
    + intros E'. rewrite E' in X2. discriminate.
    + exists k', (inferred U before (c, n)), u. auto.
Qed.
Print Assumptions C112_one.

(** A warning about two attributes: at least one was compared with a constant before, and if both
    were, their types clash. *)
Theorem C112_two (U : unicode) (before : list (cmp * operand * operand)) (k : comparison) (i : issue) (m : str) (c d : cat) (n n2 : str) :
  remark U before k (i, m) -> is_type i = 2 -> k_left k = OAtt c n -> k_right k = OAtt d n2 ->
  m = lit "Possible type error with attributes " ++ att_key U (c, n) ++ lit " and " ++ att_key U (d, n2)
      ++ lit ". Attributes compared with different types and each other" /\
  clash (inferred U before (c, n)) (inferred U before (d, n2)) = true /\
  exists k' t, In k' before /\ (evidence U (c, n) k' = Some t \/ evidence U (d, n2) k' = Some t).
Proof.
  intros R T Sl Sr. inversion R as [m' _ E|m' I D W E]; subst; [discriminate T|].
  apply dubious_doubt in W; [|eapply doubtful_att; eauto]. subst m. rewrite Sl, Sr in *. split; [reflexivity|].
  assert (X : clash (inferred U before (c, n)) (inferred U before (d, n2)) = true).
  { unfold doubtful in D. destruct (op_class_of _); try discriminate D; exact D. }
  split; [exact X|].
  destruct (type_eqb (inferred U before (c, n)) ST_UNKNOWN) eqn:E1.
  - apply type_eqb_eq in E1. destruct (inferred_from U before d n2 (inferred U before (d, n2)) eq_refl) as (k' & I1 & I2).
    + intros E2. rewrite E1, E2 in X. discriminate.
    + exists k', (inferred U before (d, n2)). auto.
  - destruct (inferred_from U before c n (inferred U before (c, n)) eq_refl) as (k' & I1 & I2).
    + intros E2. rewrite E2 in E1. discriminate.
    + exists k', (inferred U before (c, n)). auto.
Qed.
Print Assumptions C112_two.

(** It claims more than that: a policy with a warning that two attributes are compared with
    different types though one of them is compared with no constant anywhere. *)
Theorem C112_two_refuted :
  exists text a n' p c d n n2 i m,
    parse_text ascii_only text 0 = Ok (a, n') /\ abs (erase a) = Some p /\ steady ascii_only (attributes p) /\
    m_issues (fst (m_checks ascii_only (mchecker_new a) [4])) = [(i, m)] /\
    m = lit "Possible type error with attributes " ++ att_key ascii_only (c, n) ++ lit " and " ++ att_key ascii_only (d, n2)
        ++ lit ". Attributes compared with different types and each other" /\
    forall k, In k (pol_comparisons p) -> evidence ascii_only (d, n2) k = None.
Proof.
  exists (lit "user.a = 5 AND user.a = user.b"). eexists _, _, _. exists CatUser, CatUser, (lit "a"), (lit "b"). eexists _, _.
  split; [vm_compute; reflexivity|]. split; [vm_compute; reflexivity|].
  split; [intros b [<-|[<-|[<-|[]]]] m [->| ->]; vm_compute; reflexivity|].
  split; [vm_compute; reflexivity|]. split; [vm_compute; reflexivity|].
  intros k [<-|[<-|[]]]; vm_compute; reflexivity.
Qed.
Print Assumptions C112_two_refuted.

(** ** Where an issue is *)

Lemma comparisons_in :
  (forall u a, g_exp u a -> forall k, In k (comparisons a) -> In (k_tok k) u) /\
  (forall u a, g_term u a -> forall k, In k (comparisons a) -> In (k_tok k) u) /\
  (forall u a, g_policy u a -> forall k, In k (comparisons a) -> In (k_tok k) u).
Proof.
  apply g_mind; auto.
  - intros u l o v r Hl Ho Hr k Hk. cbn [comparisons] in Hk.
    destruct (abs_cmp _), (abs_operand l), (abs_operand r); try destruct Hk as [<-|[]]; try destruct Hk.
    cbn. apply in_app_iff. right. now left.
  - intros u b [t H|v x H] k Hk; [destruct Hk|]. destruct H; destruct Hk.
  - intros t u b Ht [x H|v x H] k Hk; [destruct Hk|]. destruct H; destruct Hk.
  - intros lp u p rp Hl Hp IH Hr k Hk. right. apply in_app_iff. left. now apply IH.
  - intros t lp u p rp Ht Hl Hp IH Hr k Hk. cbn [comparisons] in Hk. right. right. apply in_app_iff. left. now apply IH.
  - intros u l a v r Hl IHl Ha Hr IHr k Hk. cbn [comparisons] in Hk. apply in_app_iff in Hk. apply in_app_iff.
    destruct Hk as [Hk|Hk]; [left; now apply IHl|right; right; now apply IHr].
  - intros u l a v r Hl IHl Ha Hr IHr k Hk. cbn [comparisons] in Hk. apply in_app_iff in Hk. apply in_app_iff.
    destruct Hk as [Hk|Hk]; [left; now apply IHl|right; right; now apply IHr].
Qed.

Lemma remarks_in U ks : forall before xs x, remarks U before ks xs -> In x xs -> exists k, In k ks /\ is_token (fst x) = k_tok k /\ is_pos (fst x) = t_pos (k_tok k).
Proof.
  induction ks as [|k ks IH]; intros before xs x H Hx; inversion H as [|b k' ks' y ys Hy Hr|b k' ks' ys Hn Hr]; subst.
  - destruct Hx.
  - destruct Hx as [<-|Hx].
    + exists k. split; [now left|]. inversion Hy; subst; cbn; auto.
    + destruct (IH _ _ _ Hr Hx) as (q & Hq & E). exists q. split; [now right|exact E].
  - destruct (IH _ _ _ Hr Hx) as (q & Hq & E). exists q. split; [now right|exact E].
Qed.

(** str() of an issue: the message, the position of the operator, which is a token of the text,
    and the text within ten characters of it. *)
Theorem C112_shown (U : unicode) (text : str) (last n' : Z) (a : ast) (p : pol) (levels : list Z) (x : issue * str) :
  unicode_ok U -> parse_text U text last = Ok (a, n') -> abs (erase a) = Some p -> steady U (attributes p) ->
  In x (m_issues (fst (m_checks U (mchecker_new a) levels))) ->
  exists ts o s, lex_text U text = Ok ts /\ In o ts /\ o = is_token (fst x) /\ excerpt text (t_pos o) 10 s /\
    issue_str text x = snd x ++ lit " @ char " ++ str_of_Z (t_pos o) ++ lit " near '" ++ s ++ lit "'".
Proof.
  intros uok H Ha Hn Hx.
  pose proof (proj1 (C112_messages U text last n' a p levels _ uok H Ha Hn) eq_refl) as R.
  destruct (remarks_in _ _ _ _ _ R Hx) as (k & Hk & Et & Ep). apply in_times in Hk.
  apply (C08_text_sound U text last a n' uok) in H as (u & e & Hlex & _ & Hg).
  apply (proj2 (proj2 comparisons_in) _ _ Hg) in Hk.
  exists (start_token :: u ++ [e]), (k_tok k).
  assert (I : In (k_tok k) (start_token :: u ++ [e])) by (right; apply in_app_iff; now left).
  assert (P : 0 <= t_pos (k_tok k)).
  { apply (lex_text_iff U uok) in Hlex as (ts' & Ets & Tl). rewrite Ets in I. destruct I as [<-|I]; [cbn; lia|].
    apply tiles_lexed in Tl; [|lia]. rewrite Forall_forall in Tl. now apply Tl. }
  assert (T : text <> []).
  { intros ->. change (lex_text U []) with (@Ok (list token) [start_token; Tok END 0 TNone]) in Hlex. apply Ok_inj in Hlex.
    destruct u as [|t [|t2 u]]; [destruct Hk|discriminate Hlex|discriminate Hlex]. }
  destruct (shown_text (snd x) text (t_pos (k_tok k)) T P) as (s & X & E). exists s.
  split; [exact Hlex|]. split; [exact I|]. split; [congruence|]. split; [exact X|].
  unfold issue_str. rewrite Ep. exact E.
Qed.
Print Assumptions C112_shown.

(** ** Examples *)

Definition said_of (text : str) (levels : list Z) : list str :=
  match parse_text ascii_only text 0 with
  | Ok (a, _) => map (issue_str text) (m_issues (fst (m_checks ascii_only (mchecker_new a) levels)))
  | Err _ => []
  end.
Example C112_case : said_of (lit "user.Age > 18 AND (user.age = ""x"" OR 5 IN ""y"") AND {1} = NULL AND ""a"" < 1") [4] =
  [lit "Possible type error with attribute user.age. Attribute compared with different types. @ char 28 near '(user.age = ""x"" OR 5 '";
   lit "Type Error, string value can only be used on the left hand side of IN operations. @ char 39 near ' ""x"" OR 5 IN ""y"") AND'";
   lit "Type Error, NULL value can only be compared with other NULL values and attributes. @ char 55 near ') AND {1} = NULL AND '";
   lit "Type Error, strings can not be compared using inequality operations. @ char 70 near 'L AND ""a"" < 1'"].
Proof. vm_compute. reflexivity. Qed.
Example C112_level_case : exists a n', parse_text ascii_only (lit "user.a = 1 AND user.a = ""x"" AND 2 SUBSET {1}") 0 = Ok (a, n') /\
  exists i m, nth_error (snd (m_checks ascii_only (mchecker_new a) [4; 3])) 1 = Some (MRaised (i, m)) /\
    m = lit "Type Error, only sets and attributes can be compared using the SUBSET operation.".
Proof. eexists _, _. split; [vm_compute; reflexivity|]. eexists _, _. split; vm_compute; reflexivity. Qed.
(** The hypotheses of C112_one and C112_two. *)
Example C112_one_case : exists i m k, remark ascii_only [(OpEq, OAtt CatUser (lit "a"), OAtom (AInt 1))] k (i, m) /\ is_type i = 2 /\
  k_left k = OAtt CatUser (lit "A") /\ k_right k = OAtom (AStr (lit "x")).
Proof.
  eexists _, _, (Comp OpEq (OAtt CatUser (lit "A")) (OAtom (AStr (lit "x"))) (Tok OP 7 (TStr (lit "="))) (Tok USR_ATT 0 (TStr (lit "A"))) (Tok STRING 9 (TStr (lit "x")))).
  split; [apply rm_warning; [reflexivity|vm_compute; reflexivity|apply du_left; discriminate]|]. auto.
Qed.
Example C112_two_case : exists i m k, remark ascii_only [(OpEq, OAtt CatUser (lit "a"), OAtom (AInt 1))] k (i, m) /\ is_type i = 2 /\
  k_left k = OAtt CatUser (lit "a") /\ k_right k = OAtt CatObject (lit "b").
Proof.
  eexists _, _, (Comp OpGt (OAtt CatUser (lit "a")) (OAtt CatObject (lit "b")) (Tok OP 7 (TStr (lit ">"))) (Tok USR_ATT 0 (TStr (lit "a"))) (Tok OBJ_ATT 9 (TStr (lit "b")))).
  split; [apply rm_warning; [reflexivity|vm_compute; reflexivity|apply du_both]|]. auto.
Qed.
