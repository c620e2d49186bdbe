(** * DiagProps: the messages of syntax errors (C106, C107) *)

From Coq Require Import NArith ZArith List Bool Lia String.
From Verif Require Import PyBase PyNum Lexer LexSpec LexProps Values Ast Parser Grammar ParseProofs ParseProofs2 ParseProps ParsePos AttCert Errors Diag DiagProofs DiagSpec DiagProofs2 DiagProofs3 DiagProofs4.
Import ListNotations.
Open Scope Z_scope.

(** C106.  The parser with messages is the parser of C08-C13. *)
Theorem C106_same (U : unicode) (ts : list token) (last : Z) : forget (d_parse U ts last) = parse U ts last.
Proof. apply forget_parse. Qed.

(** C106.  A ParserError is raised exactly when there is a token to blame (C11); it holds that token
    and its position, and the message and the rule are those for what is awaited there. *)
Theorem C106_message (U : unicode) (text : str) (ts : list token) (last : Z) (e : perror) :
  unicode_ok U -> lex_text U text = Ok ts ->
  (d_parse U ts last = DSyn e <->
   exists u t k, culprit ts u t /\ waits u k /\
     e = PErr (wording k (type_name (t_type t)) (t_pos t)) (t_pos t) t (rule_of k)).
Proof.
  intros uok H. pose proof (lexed_file U text ts uok H) as Hf. split; [now apply message_found|].
  intros (u & t & k & C & Hw & ->). destruct (culprit_stops U ts last u t Hf C) as (p & P).
  rewrite <- forget_parse in P. destruct (d_parse U ts last) as [x|e|x] eqn:D; try discriminate.
  2:{ cbn in P. injection P as ->. now apply told_parse in D. }
  destruct (message_found U ts last e Hf D) as (u' & t' & k' & C' & Hw' & ->).
  pose proof Hf as (s & body & e1 & _ & _ & _ & _ & Hb & _).
  destruct (culprit_unique U ts u t u' t' Hb C C') as [<- <-].
  assert (Hbu : Forall bool_ok u) by (destruct C as [y v E _ _ _|v E _ _ _ _]; rewrite E in Hb; now apply Forall_app in Hb as [Hb _]).
  f_equal. exact (waits_same U u k' k Hbu Hw' Hw t).
Qed.

(** C106.  What the error tells depends only on the tokens read and the token found. *)
Theorem C106_one_state (U : unicode) (u : list token) (k k' : wait) (t : token) :
  Forall bool_ok u -> waits u k -> waits u k' ->
  rule_of k = rule_of k' /\ wording k (type_name (t_type t)) (t_pos t) = wording k' (type_name (t_type t)) (t_pos t).
Proof. intros Hb H H'. pose proof (waits_same U u k k' Hb H H' t) as E. injection E. auto. Qed.

(** C106.  Texts never lead to the other messages of the parser (a missing START, "{", "}" or the
    default of _eat) nor to the rules BOOL_VAR, TERM and POLICY. *)
Theorem C106_rules (U : unicode) (text : str) (ts : list token) (last : Z) (e : perror) :
  unicode_ok U -> lex_text U text = Ok ts -> d_parse U ts last = DSyn e ->
  In (pe_rule e) (map lit ["exp"; "att_name"; "atomic"; "set"; "var"; "parse"]%string) /\
  firstn 13 (pe_msg e) = lit "Syntax error,".
Proof.
  intros uok H D. apply (C106_message U text ts last e uok H) in D as (u & t & k & _ & _ & ->). cbn [pe_rule pe_msg].
  split; [destruct k; cbn [rule_of map In]; auto 8|]. destruct k; reflexivity.
Qed.

(** C107.  The tokens that can follow in a policy are the allowed ones. *)
Theorem C107_expected (U : unicode) (u : list token) (k : wait) (t : token) :
  Forall bool_ok u -> bool_ok t -> waits u k -> (viable (u ++ [t]) <-> allowed u k t).
Proof. intros Hb Ht Hw. split; [now apply (viable_allowed U)|now apply allowed_viable]. Qed.

(** C107.  With a token of the kind the message asks for in place of the one it blames, the text up
    to there is the beginning of a policy. *)
Theorem C107_asked (U : unicode) (text : str) (ts : list token) (last : Z) (e : perror) :
  unicode_ok U -> lex_text U text = Ok ts -> d_parse U ts last = DSyn e ->
  exists u t k, culprit ts u t /\ waits u k /\ pe_msg e = wording k (type_name (t_type t)) (t_pos t) /\
  (exists t', asked k t') /\ forall t', asked k t' -> viable (u ++ [t']).
Proof.
  intros uok H D. apply (C106_message U text ts last e uok H) in D as (u & t & k & C & Hw & ->).
  exists u, t, k. repeat split; auto.
  - destruct k;
    [exists (Tok NOT_OP 0 TNone)|exists (Tok USR_ATT 0 TNone)|exists (Tok INT 0 TNone)|exists (Tok COMMA 0 TNone)|exists (Tok LSET 0 TNone)
    |exists (Tok OP 0 TNone)|exists (Tok RPARN 0 TNone)|exists (Tok END 0 TNone)]; cbn; auto.
  - intros t' A. apply (allowed_viable u k t' Hw). destruct k; cbn in A |- *; auto.
Qed.

(** C107.  Which messages ask for less than may follow: after NOT, in a set, for ")" and for the
    end of the policy. *)
Theorem C107_incomplete (U : unicode) (u : list token) (k : wait) :
  Forall bool_ok u -> waits u k ->
  ((exists t, bool_ok t /\ viable (u ++ [t]) /\ ~ asked k t) <->
   k = WNegated \/ k = WElement true \/ k = WComma \/ (exists lp, k = WClose lp) \/ k = WFinish).
Proof.
  intros Hb Hw. split.
  - intros (t & Ht & V & N). apply (C107_expected U u k t Hb Ht Hw) in V. destruct k as [| |[|]| | | |lp|]; eauto 6; exfalso; cbn in *.
    + tauto.
    + destruct V as [V|[V _]]; [auto|discriminate].
    + tauto.
    + tauto.
  - intros D. assert (B : exists t, bool_ok t /\ allowed u k t /\ ~ asked k t).
    { assert (J : joins (Tok BOOL_OP 0 (TStr (lit "OR")))) by (right; split; reflexivity).
      destruct D as [->|[->|[->|[(lp & ->)| ->]]]]; cbn [allowed asked]; unfold attribute, constant;
      [exists (Tok LPARN 0 TNone)|exists (Tok RSET 0 TNone)|exists (Tok RSET 0 TNone)
      |exists (Tok BOOL_OP 0 (TStr (lit "OR")))|exists (Tok BOOL_OP 0 (TStr (lit "OR")))];
      (split; [unfold bool_ok; discriminate|split; [cbn [t_type In]; auto|cbn; intuition discriminate]]). }
    destruct B as (t & Ht & A & N). exists t. repeat split; auto. now apply (C107_expected U u k t).
Qed.

(** C107.  The message about a missing ")" is given although the parenthesis is closed. *)
Theorem C107_paren_refuted : exists text s lp w rp e err,
  lex_text ascii_only text = Ok (s :: lp :: w ++ [rp; e]) /\
  t_type lp = LPARN /\ t_type rp = RPARN /\ Forall (fun t => t_type t <> LPARN /\ t_type t <> RPARN) w /\
  d_parse ascii_only (s :: lp :: w ++ [rp; e]) 0 = DSyn err /\
  pe_msg err = lit "Syntax error, '(' at char 0 is missing matching ')'.".
Proof.
  destruct (lex_text ascii_only (lit "(user.a = 1 user.b = 2)")) as [ts|] eqn:E; [|vm_compute in E; discriminate].
  exists (lit "(user.a = 1 user.b = 2)").
  eexists (nth 0 ts odd_token), (nth 1 ts odd_token), (firstn 6 (skipn 2 ts)), (nth 8 ts odd_token), (nth 9 ts odd_token).
  rewrite E. vm_compute in E. injection E as <-.
  eexists. repeat split. repeat constructor; discriminate.
Qed.

(** The text of an error, str(e), for one text per kind of message. *)
Definition shown (text : string) : option str :=
  match lex_text ascii_only (lit text) with
  | Ok ts => match d_parse ascii_only ts 0 with DSyn e => Some (perror_str ascii_only (lit text) e) | _ => None end
  | Err _ => None
  end.
Example ex_shown :
  map shown ["TRUE AND )"; "NOT 5 = 5"; "user.a IN {}, 5"; "user.a IN {1, }"; "user.a IN {1 2}"; "user.a = AND TRUE"; "{1} AND TRUE"; "(user.a OR TRUE"; "user.a user.b"; "5 AND TRUE"; "user.a"]%string
  = map (option_map lit)
    [Some "Syntax error, unexpected RPARN at char 9. Expected start of EXP rule. @ char 9 near 'TRUE AND )' while parsing EXP rule.";
     Some "Syntax error, expected attribute name and not INT. @ char 4 near 'NOT 5 = 5' while parsing ATT_NAME rule.";
     Some "Syntax error, expected END token marking end of policy. @ char 12 near 'er.a IN {}, 5' while parsing PARSE rule.";
     Some "Syntax error, expected atomic constant and not RSET. @ char 14 near '.a IN {1, }' while parsing ATOMIC rule.";
     Some "Syntax error, expected ',' not INT in set notation. @ char 13 near 'r.a IN {1 2}' while parsing SET rule.";
     Some "Syntax error, unexpected BOOL_OP at char 9. Expected attribute or constant. @ char 9 near 'user.a = AND TRUE' while parsing VAR rule.";
     Some "Syntax error, expected operation not BOOL_OP. @ char 4 near '{1} AND TRUE' while parsing EXP rule.";
     Some "Syntax error, '(' at char 0 is missing matching ')'. @ char 15 near '.a OR TRUE' while parsing EXP rule.";
     Some "Syntax error, expected END token marking end of policy. @ char 7 near 'user.a user.b' while parsing PARSE rule.";
     Some "Syntax error, unexpected INT at char 0. Expected start of EXP rule. @ char 0 near '5 AND TRUE' while parsing EXP rule.";
     None]%string.
Proof. vm_compute. reflexivity. Qed.

(** A state of C107 and C106_one_state: inside a set on the right of a comparison in parentheses. *)
Example ex_waits : exists u, Forall bool_ok u /\ waits u WComma /\ viable (u ++ [Tok RSET 9 TNone]) /\ ~ viable (u ++ [Tok OP 9 TNone]) /\
  map t_type u = [START; NOT_OP; LPARN; USR_ATT; OP; LSET; INT].
Proof.
  set (u := map (fun ty => Tok ty 0 TNone) [START; NOT_OP; LPARN; USR_ATT; OP; LSET; INT]). exists u.
  assert (B : Forall bool_ok u) by (repeat constructor; unfold bool_ok; discriminate).
  assert (W : waits u WComma).
  { apply (w_in _ [Tok NOT_OP 0 TNone; Tok LPARN 0 TNone] [Tok USR_ATT 0 TNone; Tok OP 0 TNone; Tok LSET 0 TNone; Tok INT 0 TNone]); [reflexivity| |].
    - apply pp_first, pt_first, pe_not_paren; try reflexivity. apply pp_first, pt_first, pe_here.
    - eapply (in_right [Tok USR_ATT 0 TNone] _ (Tok OP 0 TNone) [Tok LSET 0 TNone; Tok INT 0 TNone]); [apply gv_att; now apply ga_user|reflexivity|].
      eapply is_comma; [reflexivity|]. apply gsv_one. now apply gc_int. }
  repeat split; auto.
  - apply (C107_expected ascii_only u WComma); cbn; auto. unfold bool_ok. discriminate.
  - intros V. apply (C107_expected ascii_only u WComma) in V; auto; [cbn in V; intuition discriminate|unfold bool_ok; discriminate].
Qed.

Print Assumptions C106_same.
Print Assumptions C106_message.
Print Assumptions C106_one_state.
Print Assumptions C106_rules.
Print Assumptions C107_expected.
Print Assumptions C107_asked.
Print Assumptions C107_incomplete.
Print Assumptions C107_paren_refuted.
