(** * ParseProps: the theorems about the parser (C08 - C13) *)

From Coq Require Import NArith ZArith List Bool String Lia.
From Verif Require Import PyBase PyNum Lexer LexSpec LexProofs LexProofs2 LexProps Values Ast Parser
  Grammar ParseProofs ParseProofs2 Syntax PrintProofs.
Import ListNotations.
Open Scope Z_scope.

(** C08.  A returned tree is the tree of a derivation of the tokens. *)
Theorem C08_parser_sound (U : unicode) (ts : list token) (last : Z) (a : ast) (n' : Z) :
  parse U ts last = Ok (a, n') -> derives ts (erase a).
Proof.
  intros H. apply parse_sound in H as (p & Hd & Hb). apply build_ids in Hb as (_ & _ & ->). exact Hd.
Qed.

(** What the lexer returns has START first, END last and nowhere else, and
    boolean tokens with a text. *)
Lemma lexeme_bool U s rest ty v : lexeme U s rest ty v -> ty = BOOL -> exists w, v = TStr w.
Proof. destruct 1 as [ty v Hs| | | | | | |]; intros E; try discriminate E; eauto. destruct Hs; discriminate E. Qed.

Lemma tiles_bool U p text ts : tiles U p text ts -> Forall bool_ok ts.
Proof.
  induction 1 as [p ws Hw|p ws s rest ty v ts Hw Hl Ht IH].
  - constructor; auto. intros E. discriminate.
  - constructor; auto. intros E. cbn in *. eapply lexeme_bool; eauto.
Qed.

Lemma lex_text_shape U text ts : unicode_ok U -> lex_text U text = Ok ts ->
  exists body e, ts = start_token :: body ++ [e] /\ t_type e = END /\ t_pos e = len text /\
    Forall (fun t => t_type t <> START /\ t_type t <> END) body /\
    Forall bool_ok ts.
Proof.
  intros uok H. apply (lex_text_iff U uok) in H as (ts' & -> & Ht).
  pose proof (tiles_bool _ _ _ _ Ht) as Hb.
  apply tiles_shape in Ht as (body & -> & Hs).
  exists body, (Tok END (0 + len text) TNone). repeat split; auto.
  constructor; auto. intros E; discriminate.
Qed.

(** C08, for texts: the tokens of an accepted policy text are exactly START, a
    policy of the grammar, END. *)
Theorem C08_text_sound (U : unicode) (text : str) (last : Z) (a : ast) (n' : Z) :
  unicode_ok U -> parse_text U text last = Ok (a, n') ->
  exists u e, lex_text U text = Ok (start_token :: u ++ [e]) /\ t_type e = END /\
    g_policy u (erase a).
Proof.
  intros uok H. unfold parse_text in H. apply bind_ok in H as (ts & Hl & H).
  destruct (lex_text_shape U text ts uok Hl) as (body & e & -> & He & _ & Hb & _).
  apply C08_parser_sound in H as (s & u & e' & tr & E & Hs & Hg & He').
  injection E as _ E. exists body, e. repeat split; auto.
  enough (body = u) as -> by auto.
  assert (Hn : Forall (fun t => t_type t <> END) u) by (eapply g_no_end; eauto).
  clear - E Hb Hn He He'. revert u E Hn.
  induction Hb as [|x body Hx Hb IH]; intros [|y u]; cbn; intros E Hn; auto.
  - injection E as -> E. destruct u; discriminate E.
  - injection E as -> E. tauto.
  - injection E as -> E. inversion Hn; subst. f_equal. eapply IH; eauto.
Qed.

(** C09.  Every derivation is accepted, with its tree, whatever its size. *)
Theorem C09_parser_complete (U : unicode) (ts : list token) (p : ptree) (last : Z) :
  derives ts p -> Forall bool_ok ts ->
  exists a n', parse U ts last = Ok (a, n') /\ erase a = p.
Proof.
  intros H Hb. rewrite (parse_derives U _ _ last H).
  destruct H as (s & u & e & tr & -> & _ & Hg & _).
  apply g_buildable in Hg.
  - destruct (build_ok U _ Hg last) as (a & n' & E). exists a, n'. split; auto.
    now apply build_ids in E as (_ & _ & ->).
  - inversion Hb as [|x l _ Hb2]; subst. apply Forall_app in Hb2. tauto.
Qed.

(** C09, for texts: a text whose tokens form a policy is accepted. *)
Theorem C09_text_complete (U : unicode) (text : str) (ts : list token) (p : ptree) (last : Z) :
  unicode_ok U -> lex_text U text = Ok ts -> derives ts p ->
  exists a n', parse_text U text last = Ok (a, n') /\ erase a = p.
Proof.
  intros uok Hl Hd. unfold parse_text. rewrite Hl. cbn [bind].
  destruct (lex_text_shape U text ts uok Hl) as (body & e & _ & _ & _ & _ & Hb).
  now apply C09_parser_complete.
Qed.

(** C10.  No token list has two trees, and no policy token list is a proper
    beginning of another reading of the same list. *)
Theorem C10_unambiguous (u : list token) (p q : ptree) :
  g_policy u p -> g_policy u q -> p = q.
Proof. apply (policy_unambiguous ascii_only). Qed.

Theorem C10_derives_unambiguous (ts : list token) (p q : ptree) :
  derives ts p -> derives ts q -> p = q.
Proof. apply (derives_unambiguous ascii_only). Qed.

Lemma lex_ended s body e : t_type s = START -> t_type e = END ->
  Forall (fun t => t_type t <> START /\ t_type t <> END) body -> ended (s :: body ++ [e]).
Proof.
  intros Hs He Hb. exists (s :: body), e. repeat split; auto. constructor.
  - rewrite Hs. discriminate.
  - eapply Forall_impl; [|exact Hb]. intros t [_ H]. exact H.
Qed.

(** C11.  On what the lexer returns, parse() gives a tree, ParserError at the
    position of one of the tokens, or IndexError; *)
Theorem C11_exceptions (U : unicode) (text : str) (ts : list token) (last : Z) :
  unicode_ok U -> lex_text U text = Ok ts ->
  (exists a n', parse U ts last = Ok (a, n')) \/
  (exists t, In t ts /\ parse U ts last = Err (EParser (t_pos t))) \/
  parse U ts last = Err EIndex.
Proof.
  intros uok H. destruct (lex_text_shape U text ts uok H) as (body & e & -> & He & _ & Hb & Hk).
  destruct (parse U _ last) as [[a n']|x] eqn:E; [left; eauto|]. right.
  apply parse_err in E; auto; [|now apply lex_ended].
  destruct E as [(t & Ht & ->)| ->]; eauto.
Qed.

(** and IndexError exactly when END is met where an expression has to start. *)
Theorem C11_index_error (U : unicode) (text : str) (ts : list token) (last : Z) :
  unicode_ok U -> lex_text U text = Ok ts ->
  (parse U ts last = Err EIndex <->
   exists s u e, ts = s :: u ++ [e] /\ t_type e = END /\ pre_policy u).
Proof.
  intros uok H. destruct (lex_text_shape U text ts uok H) as (body & e & -> & He & _ & Hb & Hk).
  rewrite parse_index by (try apply lex_ended; auto). split.
  - intros (s & u & e' & E & _ & Hu). exists s, u, e'. repeat split; auto.
    injection E as _ E. apply app_inj_tail in E as [_ <-]. exact He.
  - intros (s & u & e' & E & _ & Hu). exists s, u, e'. repeat split; auto.
    injection E as <- _. reflexivity.
Qed.

(** C12.  Every policy can be written down, and what is written is read back:
    with the minimal-parentheses printer, *)
Theorem C12_print_parse (U : unicode) (dec : pyfloat -> bool * N * nat) (p : pol) (last : Z) :
  unicode_ok U -> pol_ok dec U p ->
  exists nd n', parse_text U (print_text dec p) last = Ok (nd, n') /\ abs (erase nd) = Some p.
Proof. intros. now apply print_read. Qed.

(** and with any choice of extra parentheses, spelling of the words, and blanks. *)
Theorem C12_any_rendering (U : unicode) (p : pol) (ws : list word) (items : list (str * str))
    (trail : str) (last : Z) :
  unicode_ok U -> w_pol p ws ->
  Forall2 (fun it w => Forall (space U) (fst it) /\ lexeme U (snd it) [] (fst w) (snd w)) items ws ->
  Forall (fun it => fst it <> []) (tl items) -> Forall (space U) trail ->
  exists nd n', parse_text U (layout items trail) last = Ok (nd, n') /\ abs (erase nd) = Some p.
Proof. intros uok. now apply read_back. Qed.

Lemma zseq_length z k : List.length (zseq z k) = k.
Proof. revert z; induction k as [|k IH]; intros z; cbn; auto. Qed.
Lemma zseq_map z k : zseq z k = map (fun i => z + Z.of_nat i) (seq 0 k).
Proof.
  revert z; induction k as [|k IH]; intros z; cbn [zseq seq map]; auto.
  f_equal; [lia|]. rewrite IH, <- seq_shift, map_map. apply map_ext. intros; lia.
Qed.

(** C13.  The nodes get the next ids in post-order. *)
Theorem C13_ids (U : unicode) (ts : list token) (last : Z) (a : ast) (n' : Z) :
  parse U ts last = Ok (a, n') ->
  n' = last + Z.of_nat (List.length (postorder a)) /\
  postorder a = map (fun i => last + 1 + Z.of_nat i) (seq 0 (List.length (postorder a))) /\
  NoDup (postorder a).
Proof.
  intros H. apply parse_sound in H as (p & _ & Hb). apply build_ids in Hb as (-> & E & _).
  assert (L : List.length (postorder a) = num_nodes a) by (rewrite E; apply zseq_length).
  rewrite L. repeat split; auto.
  - rewrite E. apply zseq_map.
  - rewrite E. apply zseq_nodup.
Qed.

Theorem C13_disjoint (U : unicode) (ts1 ts2 : list token) (n0 n1 n2 : Z) (a1 a2 : ast) :
  parse U ts1 n0 = Ok (a1, n1) -> parse U ts2 n1 = Ok (a2, n2) ->
  forall i, In i (postorder a1) -> ~ In i (postorder a2).
Proof.
  intros H1 H2 i. apply parse_sound in H1 as (p & _ & Hb). apply parse_sound in H2 as (q & _ & Hc).
  apply build_ids in Hb as (-> & E1 & _). apply build_ids in Hc as (-> & E2 & _).
  rewrite E1, E2, !zseq_in. lia.
Qed.

(** ** Concrete cases *)

Definition ex_policy : str := lit "user.age >= 18 AND NOT (object.open OR {1, ""a"", NULL} SUBSET env.s) OR TRUE".

Example ex_parse : exists a, parse_text ascii_only ex_policy 41 = Ok (a, 56) /\
  List.length (postorder a) = 15%nat /\ n_id a = 56 /\
  abs (erase a) = Some
    (POr (PAnd (PCmp OpGe (OAtt CatUser (lit "age")) (OAtom (AInt 18)))
               (PNot (POr (PAtt CatObject (lit "open"))
                          (PCmp OpSubset (OSet [AInt 1; AStr (lit "a"); ANull]) (OAtt CatEnv (lit "s"))))))
         (PConst TRUE)).
Proof. eexists. vm_compute. repeat split. Qed.

(** the same policy text has a derivation *)
Example ex_derives : exists ts p, lex_text ascii_only ex_policy = Ok ts /\ derives ts p.
Proof.
  destruct ex_parse as (a & H & _). apply C08_text_sound in H; [|apply ascii_only_ok].
  destruct H as (u & e & Hl & He & Hg). exists (start_token :: u ++ [e]), (erase a). split; [exact Hl|].
  exists start_token, u, e, []. auto.
Qed.

Example ex_index_error : parse_text ascii_only (lit "user.a AND (true OR") 0 = Err EIndex.
Proof. vm_compute. reflexivity. Qed.
Example ex_parser_error : parse_text ascii_only (lit "user.a AND (true OR user.b") 0 = Err (EParser 26).
Proof. vm_compute. reflexivity. Qed.
(** a comparison of boolean literals is outside the grammar *)
Example ex_parser_error2 : parse_text ascii_only (lit "true = true") 0 = Err (EParser 5).
Proof. vm_compute. reflexivity. Qed.

(** left associativity and explicit grouping give different trees, and both are printed faithfully *)
Definition ex_group : pol :=
  PAnd (PAtt CatUser (lit "a")) (PAnd (POr (PConst FALSE) (PConst UNDEF)) (PNot (PNot (PConst TRUE)))).
Example ex_print :
  print_text (fun _ => (false, 0%N, 1%nat)) ex_group
  = lit " user.a AND ( ( FALSE OR UNDEF ) AND NOT ( NOT TRUE ) )"
  /\ pol_ok (fun _ => (false, 0%N, 1%nat)) ascii_only ex_group.
Proof. vm_compute. repeat split; try discriminate; auto. Qed.

Definition half : pyfloat := float_of_dec true 5 1.
Example ex_print_float :
  print_text (fun _ => (true, 5%N, 1%nat)) (PCmp OpNe (OAtom (AFloat half)) (OAtom (AInt (-120)))) = lit " -0.5 != -120"
  /\ pol_ok (fun _ => (true, 5%N, 1%nat)) ascii_only (PCmp OpNe (OAtom (AFloat half)) (OAtom (AInt (-120)))).
Proof. split; [vm_compute; reflexivity|]. split; [split; [constructor|reflexivity]|exact I]. Qed.

Print Assumptions C08_parser_sound.
Print Assumptions C08_text_sound.
Print Assumptions C09_parser_complete.
Print Assumptions C09_text_complete.
Print Assumptions C10_unambiguous.
Print Assumptions C10_derives_unambiguous.
Print Assumptions C11_exceptions.
Print Assumptions C11_index_error.
Print Assumptions C12_print_parse.
Print Assumptions C12_any_rendering.
Print Assumptions C13_ids.
Print Assumptions C13_disjoint.
