(** * PAuthLogProofs2: what the policy authority says of a policy, and evaluate *)

From Coq Require Import NArith ZArith List Bool String Lia.
From Verif Require Import PyBase PyNum AttCert Errors ErrorProps ShowSpec ShowProofs3 BytesProofs ShownProps Lexer LexSpec LexProofs LexProofs2 LexProps Values Ast Parser
  Grammar ParsePos ParseProofs ParseProofs2 Syntax ParseProps AbsProofs TypeCheck TypeSpec TypeProofs TypeProps
  Diag DiagSpec DiagProofs DiagProps LexDiag LexDiagSpec LexDiagProps TypeDiag TypeDiagSpec TypeDiagProofs TypeDiagProps
  PAuth PAuthSpec AAuthLog AAuthLogSpec AAuthLogProofs PAuthLog PAuthLogSpec PAuthLogProofs.
Import ListNotations.
Open Scope Z_scope.

Section Policy.
Variable U : unicode.
Hypothesis uok : unicode_ok U.
Variable other : exc -> str.

Lemma lexed_toks text ts : lex_text U text = Ok ts <-> exists l, ld_tokenize U (lexer_init text) = (None, l) /\ lx_toks l = ts.
Proof.
  unfold lex_text. rewrite (proj2 (C108_same U (lexer_init text))). destruct (ld_tokenize U (lexer_init text)) as [[x|] l]; cbn [bind]; split.
  - discriminate.
  - intros (l' & E & _). discriminate.
  - intros E. apply Ok_inj in E. exists l. auto.
  - intros (l' & E & T). injection E as ->. now rewrite T.
Qed.
Lemma read_tree text a n : parse_text U text (-1) = Ok (a, n) <->
  exists l, ld_tokenize U (lexer_init text) = (None, l) /\ d_parse U (lx_toks l) (-1) = DOk (a, n).
Proof.
  unfold parse_text. split.
  - intros H. destruct (lex_text U text) as [ts|] eqn:L; [|discriminate]. cbn [bind] in H.
    apply lexed_toks in L as (l & L & <-). exists l. split; [exact L|].
    rewrite <- C106_same in H. destruct (d_parse U (lx_toks l) (-1)); try discriminate. unfold Diag.forget in H. apply Ok_inj in H. now subst.
  - intros (l & L & D). rewrite (proj2 (lexed_toks text (lx_toks l))) by (exists l; auto). cbn [bind]. rewrite <- C106_same, D. reflexivity.
Qed.

Lemma check_plain a level : TypeDiagProps.forget (snd (m_check U (mchecker_new a) level)) = snd (check U (checker_new a) level).
Proof.
  pose proof (C112_same U a [level]) as C. cbn [m_checks checks] in C. destruct (m_check U (mchecker_new a) level) as [c r].
  destruct (check U (checker_new a) level) as [c' r']. destruct C as [C _]. cbn [map snd] in *. congruence.
Qed.

Lemma policy_good text : policy_error U other text = None <-> check_policy U text = Ok tt.
Proof.
  unfold policy_error, check_policy. destruct (ld_tokenize U (lexer_init text)) as [[x|] l] eqn:L.
  - assert (P : parse_text U text (-1) = Err (plain x)).
    { unfold parse_text, lex_text. rewrite (proj2 (C108_same U (lexer_init text))), L. reflexivity. }
    rewrite P. destruct x; split; discriminate.
  - destruct (d_parse U (lx_toks l) (-1)) as [[a n]|e|x] eqn:D.
    + rewrite (proj2 (read_tree text a n)) by (exists l; auto). rewrite <- check_plain. destruct (snd (m_check _ _ _)); cbn [TypeDiagProps.forget]; split; congruence.
    + assert (P : exists e', parse_text U text (-1) = Err e').
      { unfold parse_text. rewrite (proj2 (lexed_toks text (lx_toks l))) by (exists l; auto). cbn [bind]. rewrite <- C106_same, D. eexists. reflexivity. }
      destruct P as [e' ->]. split; discriminate.
    + assert (P : exists e', parse_text U text (-1) = Err e').
      { unfold parse_text. rewrite (proj2 (lexed_toks text (lx_toks l))) by (exists l; auto). cbn [bind]. rewrite <- C106_same, D. eexists. reflexivity. }
      destruct P as [e' ->]. split; discriminate.
Qed.

Variable text : str.
Hypothesis names : forall a n p, parse_text U text (-1) = Ok (a, n) -> abs (erase a) = Some p -> steady U (attributes p).

Lemma first_issue a n : parse_text U text (-1) = Ok (a, n) ->
  exists xs, (forall ys, remarks U [] (comparisons (erase a)) ys <-> ys = xs) /\
    snd (m_check U (mchecker_new a) 0) = match xs with [] => MReturned [] | x :: _ => MRaised x end /\
    forall x, In x xs -> exists s, excerpt text (is_pos (fst x)) 10 s /\ issue_str text x = told (snd x) (is_pos (fst x)) s.
Proof.
  intros H. destruct (parse_text_abs U text (-1) a n uok H) as (p & Ha). pose proof (names a n p H Ha) as Hn.
  pose proof (C112_messages U text (-1) n a p [0]) as M. change (times (List.length [0]) (comparisons (erase a))) with (comparisons (erase a)) in M.
  set (xs := m_issues (fst (m_checks U (mchecker_new a) [0]))) in *. exists xs.
  assert (R : forall ys, remarks U [] (comparisons (erase a)) ys <-> ys = xs).
  { intros ys. split; [intros Q; symmetry; now apply (M ys uok H Ha Hn)|intros ->; now apply (M xs uok H Ha Hn)]. }
  split; [exact R|]. split.
  - destruct (C112_levels U text (-1) n a p [0] 0 0 uok H Ha Hn eq_refl) as (ys & x & Q & A & E).
    change (times 1 (comparisons (erase a))) with (comparisons (erase a)) in Q. apply R in Q. subst ys.
    cbn [m_checks] in E. destruct (m_check U (mchecker_new a) 0) as [c r]. cbn [snd nth_error] in *. injection E as ->.
    assert (T : forall y, In y xs -> 0 <= is_type (fst y)).
    { pose proof (proj2 (R xs) eq_refl) as Q. clear - Q. revert Q. generalize (@nil (cmp * operand * operand)) as b. intros b Q.
      induction Q as [|b k ks x xs r Q IH|b k ks xs nr Q IH]; intros y Y; [destruct Y| |now apply IH].
      destruct Y as [<-|Y]; [|now apply IH]. destruct r; cbn; lia. }
    destruct x as [x|]; cbn [at_level] in A.
    + destruct A as (l1 & l2 & E & _ & B). rewrite E in *. destruct l1 as [|y l1]; [reflexivity|].
      pose proof (T y (or_introl eq_refl)). pose proof (B y (or_introl eq_refl)). lia.
    + destruct xs as [|y ys]; [reflexivity|]. pose proof (T y (or_introl eq_refl)). pose proof (A y (or_introl eq_refl)). lia.
  - intros x I. destruct (C112_shown U text (-1) n a p [0] x uok H Ha Hn I) as (ts & o & s & _ & _ & O & X & E).
    destruct (remarks_in U _ _ _ x (proj2 (R xs) eq_refl) I) as (k & _ & T1 & T2). assert (P : t_pos o = is_pos (fst x)) by congruence.
    rewrite P in X, E. exists s. split; [exact X|exact E].
Qed.

Lemma rules_one r a b : In (r, a) rule_names -> In (r, b) rule_names -> a = b.
Proof.
  assert (N : NoDup (map fst rule_names)).
  { repeat constructor; cbn [In map fst rule_names]; intros H; repeat (destruct H as [H|H]; [vm_compute in H; discriminate|]); destruct H. }
  revert N. induction rule_names as [|[x y] l IH]; cbn [map fst In]; intros N A B; [destruct A|]. inversion N as [|? ? N1 N2]; subst.
  destruct A as [A|A], B as [B|B].
  - congruence.
  - injection A as <- <-. exfalso. apply N1. change x with (fst (x, b)). now apply in_map.
  - injection B as <- <-. exfalso. apply N1. change x with (fst (x, a)). now apply in_map.
  - now apply IH.
Qed.

Lemma shown_error ts e : lex_text U text = Ok ts -> d_parse U ts (-1) = DSyn e ->
  exists x rule, excerpt text (t_pos (pe_tok e)) 10 x /\ In (pe_rule e, rule) rule_names /\
    perror_str U text e = told (pe_msg e) (t_pos (pe_tok e)) x ++ lit " while parsing " ++ rule ++ lit " rule.".
Proof.
  intros L D. assert (T : text <> []).
  { intros E. subst text. vm_compute in L. apply Ok_inj in L. subst ts. vm_compute in D. discriminate. }
  destruct (C106_shown U text ts (-1) e uok L D T) as (x & rule & X & R & _ & E). exists x, rule. split; [exact X|]. split; [exact R|].
  rewrite E. unfold told. rewrite <- !app_assoc. reflexivity.
Qed.

Theorem policy_told m : policy_error U other text = Some m <-> complaint U other text m.
Proof.
  split.
  - unfold policy_error. destruct (ld_tokenize U (lexer_init text)) as [[[e|x]|] l] eqn:L.
    + intros H. injection H as <-. pose proof (C108_shown U text e l uok L) as (s & X & ->).
      apply C108_error in L as (ts & q & ws & r & t & r' & R & W & F & _); [|exact uok]. exact (co_lexer U other text ts q ws r t r' _ _ s R W F X).
    + intros H. injection H as <-. apply C108_crash in L as (ts & q & ws & s & r & R & W & C & _); [|exact uok]. exact (co_python U other text ts q ws s r x R W C).
    + assert (Lx : lex_text U text = Ok (lx_toks l)) by (apply lexed_toks; eauto).
      destruct (d_parse U (lx_toks l) (-1)) as [[a n]|e|x] eqn:D.
      * assert (P : parse_text U text (-1) = Ok (a, n)) by (apply read_tree; eauto).
        destruct (first_issue a n P) as (xs & R & -> & S). destruct xs as [|[i t] xs]; [discriminate|]. intros H. injection H as <-.
        destruct (S _ (or_introl eq_refl)) as (s & X & ->). exact (co_types U other text a n i t xs s P (proj2 (R _) eq_refl) X).
      * intros H. injection H as <-. destruct (shown_error _ e Lx D) as (x & rule & X & R & ->).
        apply (C106_message U text _ (-1) e uok Lx) in D as (u & t & k & C & W & ->). cbn [pe_msg pe_tok pe_rule] in *.
        exact (co_parser U other text _ u t k x rule Lx C W X R).
      * intros H. injection H as <-. assert (P : parse U (lx_toks l) (-1) = Err x) by now rewrite <- C106_same, D.
        destruct (C11_exceptions U text _ (-1) uok Lx) as [(a & n & Q)|[(t & _ & Q)|Q]]; rewrite P in Q; try discriminate.
        -- injection Q as ->. now apply told_parse in D.
        -- injection Q as ->. apply (C11_index_error U text _ (-1) uok Lx) in P as (s & u & e & E & T & V). rewrite E in Lx. exact (co_ends U other text s u e Lx T V).
  - intros H. destruct H as [ts q ws s t r m p x R W F X|ts q ws s r y R W C|ts u t k x rule L C W X R|s u e L T V|a n i m xs x P R X]; unfold policy_error.
    + assert (E : ld_tokenize U (lexer_init text) = (Some (RSyn (LErr m p (blamed (q + len ws) t))), Lx (len text - len r) r (start_token :: ts) (att_tokens ts))).
      { apply C108_error; [exact uok|]. exists ts, q, ws, s, t, r. auto. }
      rewrite E. destruct (C108_shown U text _ _ uok E) as (x' & X' & ->). cbn [le_pos le_msg] in *. rewrite (excerpt_unique _ _ _ _ _ X X'). reflexivity.
    + rewrite (proj2 (C108_crash U text y _ uok) (ex_intro _ ts (ex_intro _ q (ex_intro _ ws (ex_intro _ s (ex_intro _ r (conj R (conj W (conj C eq_refl))))))))). reflexivity.
    + pose proof (proj2 (C106_message U text ts (-1) _ uok L) (ex_intro _ u (ex_intro _ t (ex_intro _ k (conj C (conj W eq_refl)))))) as D.
      destruct (shown_error ts _ L D) as (x' & rule' & X' & R' & E). cbn [pe_msg pe_tok pe_rule] in *.
      apply lexed_toks in L as (l & L & <-). rewrite L, D, E, (excerpt_unique _ _ _ _ _ X X'), (rules_one _ _ _ R R'). reflexivity.
    + assert (P : parse U (s :: u ++ [e]) (-1) = Err EIndex) by (apply (C11_index_error U text _ (-1) uok L); eauto 8).
      rewrite <- C106_same in P. apply lexed_toks in L as (l & L & E). rewrite L, E. destruct (d_parse U _ (-1)); unfold Diag.forget in P; try discriminate. now injection P as ->.
    + destruct (first_issue a n P) as (ys & R' & M & S). apply R' in R. subst ys.
      apply read_tree in P as (l & L & D). rewrite L, D, M. destruct (S _ (or_introl eq_refl)) as (x' & X' & ->). cbn [fst snd] in *.
      now rewrite (excerpt_unique _ _ _ _ _ X X').
Qed.
End Policy.

(** ** evaluate *)

Lemma evaluate_same U a other same_id d sid p :
  forget (l_evaluate U (Some a) other same_id d sid p) = evaluate U same_id d sid p.
Proof.
  destruct p as [u s l]. unfold l_evaluate, evaluate. cbn [pr_uid pr_string pr_atts].
  assert (C : forall t, check_policy U t = Ok tt \/ check_policy U t = Err EClientFault).
  { intros t. unfold check_policy. destruct (parse_text U t (-1)) as [[? ?]|]; [|auto]. destruct (snd _); auto. }
  assert (G : forall t, forget (match policy_error U other t with
        | None => lw_ret tt
        | Some e => a0 <$ remote (Some a) ;; _ <$ say error_level (lit "ClientFault: Invalid policy in evaluate request from " ++ a0 ++ lit ", error is " ++ e) ;;
            lw_stop (Fault (lit "Invalid policy: " ++ e)) end) = check_policy U t).
  { intros t. pose proof (policy_good U other t) as Q. destruct (policy_error U other t) as [e|].
    - destruct (C t) as [E|E]; rewrite E in *; [destruct Q as [_ Q]; now specialize (Q eq_refl)|reflexivity].
    - rewrite (proj1 Q eq_refl). reflexivity. }
  rewrite forget_bind, forget_of. destruct u as [|[u|]]; cbn [getattr bind]; [reflexivity| |].
  - rewrite forget_bind. change (forget (lw_ret false)) with (Ok false). cbn [bind]. rewrite forget_bind.
    destruct (d_sessions d); [reflexivity|]. destruct (find _ (d_policies d)); [|reflexivity]. reflexivity.
  - rewrite forget_bind, forget_bind, forget_of. destruct s as [|[s|]]; cbn [getattr bind]; [reflexivity| |reflexivity].
    change (forget (lw_ret false)) with (Ok false). cbn [bind]. rewrite forget_bind, forget_bind, forget_of. cbn [bind].
    change (forget (lw_ret s)) with (Ok s). cbn [bind]. rewrite forget_bind, G. destruct (C s) as [->| ->]; cbn [bind]; [|reflexivity].
    rewrite forget_bind, forget_of. destruct l as [|[l|]]; cbn [getattr bind]; [reflexivity| |].
    + rewrite forget_bind. destruct (existsb _ l); [reflexivity|]. change (forget (lw_ret tt)) with (Ok tt). cbn [bind].
      destruct (find _ (d_sessions d)); reflexivity.
    + rewrite forget_bind. change (forget (lw_ret tt)) with (Ok tt). cbn [bind]. destruct (find _ (d_sessions d)); reflexivity.
Qed.

(** What evaluate comes to, in one match. *)
Lemma evaluate_form U a other same_id d sid p :
  l_evaluate U (Some a) other same_id d sid p =
  match pr_uid p with
  | Missing => ([], inr (Crash EAttribute))
  | Has (Some u) =>
      match d_sessions d, find (fun q => str_eqb (po_uid q) u) (d_policies d) with
      | _ :: _, Some _ => ([], inr (Crash EAttribute))
      | _, _ => ([LRec 40 (lit "ClientFault: Unknown policy uid in evaluate request from " ++ a)], inr (Fault (lit "Unknown policy uid.")))
      end
  | Has None =>
      match pr_string p with
      | Missing => ([], inr (Crash EAttribute))
      | Has None => ([LRec 40 (lit "ClientFault: Need to give policy uid or policy string in evaluate request from " ++ a)], inr (Fault (lit "Need to give policy uid or policy string.")))
      | Has (Some s) =>
          match policy_error U other s with
          | Some m => ([LRec 40 (lit "ClientFault: Invalid policy in evaluate request from " ++ a ++ lit ", error is " ++ m)], inr (Fault (lit "Invalid policy: " ++ m)))
          | None =>
              match pr_atts p with
              | Missing => ([], inr (Crash EAttribute))
              | Has atts =>
                  if match atts with Some l => existsb (fun a => match oa_name a, oa_uid a with None, None => true | _, _ => false end) l | None => false end
                  then ([LRec 40 (lit "ClientFault: Attribute without name or uid in evaluate request from " ++ a)], inr (Fault (lit "Attribute without name or uid, need one or the other.")))
                  else match find (fun s => same_id (se_id s) sid) (d_sessions d) with
                       | None => ([LRec 40 (lit "ClientFault: Unknown session_id in evaluate request from " ++ a)], inr (Fault (lit "Unknown session_id.")))
                       | Some _ => ([], inr (Crash EAttribute))
                       end
              end
          end
      end
  end.
Proof.
  destruct p as [u s l]. unfold l_evaluate. cbn [pr_uid pr_string pr_atts].
  destruct u as [|[u|]]; cbn [getattr]; [reflexivity| |].
  - rewrite ok_bind, ret_bind. destruct (d_sessions d); [reflexivity|]. destruct (find _ (d_policies d)); reflexivity.
  - rewrite ok_bind. destruct s as [|[s|]]; cbn [getattr]; [reflexivity| |reflexivity]. rewrite !ok_bind, !ret_bind.
    destruct (policy_error U other s); [reflexivity|]. rewrite ret_bind. destruct l as [|[l|]]; cbn [getattr]; [reflexivity| |].
    + rewrite ok_bind. destruct (existsb _ l); [reflexivity|]. rewrite ret_bind. destruct (find _ (d_sessions d)); reflexivity.
    + rewrite ok_bind, ret_bind. destruct (find _ (d_sessions d)); reflexivity.
Qed.

Lemma unnamed_in l : existsb (fun a => match oa_name a, oa_uid a with None, None => true | _, _ => false end) l = true <-> In (ObjAtt None None) l.
Proof.
  rewrite existsb_exists. split.
  - intros ([[n|] [u|]] & I & E); try discriminate. exact I.
  - intros I. exists (ObjAtt None None). auto.
Qed.

Lemma evaluate_told U a other same_id d sid p : unicode_ok U ->
  (forall s t n q, pr_string p = Has (Some s) -> parse_text U s (-1) = Ok (t, n) -> abs (erase t) = Some q -> steady U (attributes q)) ->
  forall recs x, l_evaluate U (Some a) other same_id d sid p = (recs, inr x) <->
    (exists log t, not_evaluated U other same_id d sid a p log t /\ recs = [LRec 40 log] /\ x = Fault t) \/
    (recs = [] /\ x = Crash EAttribute /\ forall log t, ~ not_evaluated U other same_id d sid a p log t).
Proof.
  intros uok names.
  assert (PT : forall s, pr_string p = Has (Some s) -> forall m, policy_error U other s = Some m <-> complaint U other s m).
  { intros s S m. apply policy_told; [exact uok|]. intros t n q. now apply names. }
  assert (F : (exists log t, not_evaluated U other same_id d sid a p log t /\ l_evaluate U (Some a) other same_id d sid p = ([LRec 40 log], inr (Fault t))) \/
    (l_evaluate U (Some a) other same_id d sid p = ([], inr (Crash EAttribute)))).
  { rewrite evaluate_form. destruct (pr_uid p) as [|[u|]] eqn:Pu; [now right| |].
    - destruct (d_sessions d) as [|x0 l0] eqn:Ds.
      + left. eexists _, _. split; [|reflexivity]. apply (ne_uid _ _ _ _ _ _ _ u Pu). now left.
      + destruct (find _ (d_policies d)) as [q|] eqn:Fq; [now right|]. left. eexists _, _. split; [|reflexivity]. apply (ne_uid _ _ _ _ _ _ _ u Pu).
        right. intros I. apply in_map_iff in I as (q & E & I). apply (find_none _ _ Fq) in I. rewrite E, str_eqb_refl in I. discriminate.
    - destruct (pr_string p) as [|[s|]] eqn:Ps; [now right| |left; eexists _, _; split; [now apply ne_none|reflexivity]].
      destruct (policy_error U other s) as [m|] eqn:Pe.
      + left. eexists _, _. split; [|reflexivity]. apply (ne_policy _ _ _ _ _ _ _ s m Pu Ps). now apply PT.
      + assert (N : forall m, ~ complaint U other s m). { intros m Q. apply PT in Q; [congruence|reflexivity]. }
        destruct (pr_atts p) as [|atts] eqn:Pa; [now right|].
        destruct (match atts with Some l => existsb _ l | None => false end) eqn:Ex.
        * destruct atts as [l|]; [|discriminate]. left. eexists _, _. split; [|reflexivity]. apply (ne_att _ _ _ _ _ _ _ s l Pu Ps N Pa). now apply unnamed_in.
        * destruct (find _ (d_sessions d)) as [q|] eqn:Fq; [now right|]. left. eexists _, _. split; [|reflexivity].
          apply (ne_session _ _ _ _ _ _ _ s atts Pu Ps N Pa).
          -- intros l -> I. apply unnamed_in in I. congruence.
          -- intros x0 I. exact (find_none _ _ Fq x0 I). }
  assert (B : forall log t, not_evaluated U other same_id d sid a p log t -> l_evaluate U (Some a) other same_id d sid p = ([LRec 40 log], inr (Fault t))).
  { intros log t H. rewrite evaluate_form. destruct H as [Pu Ps|u Pu D|s m Pu Ps C|s l Pu Ps N Pa I|s atts Pu Ps N Pa I S]; rewrite ?Pu, ?Ps.
    - reflexivity.
    - destruct (d_sessions d) as [|x0 l0]; [reflexivity|]. destruct (find _ (d_policies d)) as [q|] eqn:Fq; [|reflexivity].
      destruct D as [D|D]; [discriminate|]. exfalso. apply D. apply find_some in Fq as [I E]. apply str_eqb_eq in E. rewrite <- E. now apply in_map.
    - apply (PT s Ps) in C. rewrite C. reflexivity.
    - destruct (policy_error U other s) as [m|] eqn:Pe; [exfalso; apply (N m); now apply PT|]. rewrite Pa. apply unnamed_in in I. rewrite I. reflexivity.
    - destruct (policy_error U other s) as [m|] eqn:Pe; [exfalso; apply (N m); now apply PT|]. rewrite Pa.
      assert (E : match atts with Some l => existsb (fun a => match oa_name a, oa_uid a with None, None => true | _, _ => false end) l | None => false end = false).
      { destruct atts as [l|]; [|reflexivity]. destruct (existsb _ l) eqn:E; [|reflexivity]. apply unnamed_in in E. now apply I in E. }
      rewrite E. destruct (find _ (d_sessions d)) as [q|] eqn:Fq; [|reflexivity]. apply find_some in Fq as [I' E']. rewrite (S q I') in E'. discriminate. }
  intros recs x. split.
  - intros H. destruct F as [(log & t & N & E)|E]; rewrite E in H; apply lw_inj in H as [<- H]; apply inr_inj in H; subst x.
    + left. exists log, t. auto.
    + right. split; [reflexivity|]. split; [reflexivity|]. intros log t N. apply B in N. rewrite E in N. discriminate.
  - intros [(log & t & N & -> & ->)|(-> & -> & N)]; [now apply B|]. destruct F as [(log & t & N' & _)|E]; [now apply N in N'|exact E].
Qed.
