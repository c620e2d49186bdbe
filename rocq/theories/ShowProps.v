(** * ShowProps: C110 and C111, what printed tokens and trees tell *)

From Coq Require Import NArith ZArith List Bool String Lia SpecFloat.
From Verif Require Import PyBase PyNum Lexer LexSpec LexProofs LexProofs2 Values Ast Symbols AttCert Errors Demo LexDiag Diag Parser Grammar
  ParseProofs ParseProofs2 EvalProofs CodecSpec CodecProps BytesProofs CertProofs CertProofs3 Interp Show ShowSpec ShowProofs ShowProofs2 ShowProofs3.
Import ListNotations.
Open Scope Z_scope.

Lemma Forall2_len {A B} {R : A -> B -> Prop} {l m} : Forall2 R l m -> List.length l = List.length m.
Proof. induction 1; cbn; congruence. Qed.

Lemma removelast_cons_ne {A} (x : A) l : l <> [] -> removelast (x :: l) = x :: removelast l.
Proof. destruct l; [congruence|reflexivity]. Qed.

(** ** C110: str() of a tree *)

(** If no result is printed with a line break, str() is one line for each node, parents first, and each
    line begins with three blanks for each level, the type and the value of the node. *)
Theorem C110_lines (printable : N -> bool) (P : pytext) (h : heap) (a : ast) (s : str) :
  float_texts P -> node_str printable P h a = Ok s ->
  (forall n x, In n (subtrees a) -> result_str P h (n_result n) = Ok x -> ~ In nl x) ->
  exists ls, split_on nl s = ls ++ [[]] /\ List.length ls = num_nodes a /\
    Forall2 (fun l '(d, n) => exists x, result_str P h (n_result n) = Ok x /\
      l = repeat 32%N (3 * d) ++ type_name (t_type (n_tok n)) ++ lit ": " ++ val_repr printable P (t_val (n_tok n)) ++ lit " -> " ++ x)
      ls (preorder 0 a).
Proof.
  intros FT H Q. destruct (node_str_lines printable P h a s) as (ls & E & F); auto.
  { intros f I. pose proof (ft_chars P FT f) as C. rewrite Forall_forall in C. apply C in I. unfold number_char, nl in I. lia. }
  exists ls. split; [exact E|]. split.
  - transitivity (List.length (preorder 0 a)); [exact (Forall2_len F)|].
    rewrite <- (map_length snd), preorder_nodes. apply subtrees_num.
  - clear E H. induction F as [|l [d n] ls es H _ IH]; constructor; auto.
Qed.
Print Assumptions C110_lines.

(** Two trees print the same exactly if they have the same form, the same types and values and results
    with the same texts. *)
Theorem C110_form (printable : N -> bool) (P : pytext) (h h' : heap) (a b : ast) (s s' : str) :
  float_texts P -> chars_ok a -> chars_ok b ->
  node_str printable P h a = Ok s -> node_str printable P h' b = Ok s' ->
  (forall n x, In n (subtrees a) -> result_str P h (n_result n) = Ok x -> ~ In nl x) ->
  (forall n x, In n (subtrees b) -> result_str P h' (n_result n) = Ok x -> ~ In nl x) ->
  (s = s' <-> alike (fun r r' => result_str P h r = result_str P h' r') a b).
Proof.
  intros FT CA CB A B QA QB. split.
  2: { intros H. apply (alike_print printable P h h' a 0 b) in H. unfold node_str in A, B. congruence. }
  intros <-.
  assert (N : forall f, ~ In nl (show_float P f)).
  { intros f I. pose proof (ft_chars P FT f) as C. rewrite Forall_forall in C. apply C in I. unfold number_char, nl in I. lia. }
  destruct (node_str_lines printable P h a s) as (ls & E & F); auto. destruct (node_str_lines printable P h' b s) as (ls' & E' & F'); auto.
  rewrite E in E'. apply app_inv_tail in E'. subst ls'.
  assert (K : forall m, chars_ok m -> Forall (fun e => Forall code_point (value_text (t_val (n_tok (snd e))))) (preorder 0 m)).
  { intros m M. apply Forall_forall. intros e He. apply (M (snd e)); [|now left]. rewrite <- (preorder_nodes m 0). now apply in_map. }
  pose proof (K a CA) as KA. pose proof (K b CB) as KB.
  assert (L : Forall2 (same_label (same_result P h h')) (preorder 0 a) (preorder 0 b)).
  { clear - F F' KA KB FT. revert F' KB. generalize (preorder 0 b). induction F as [|l x ls xs Hx _ IH]; intros ys F' KB; inversion F'; subst; constructor.
    - inversion KA; inversion KB; subst. eapply line_label; eauto.
    - inversion KA; inversion KB; subst. auto. }
  rewrite <- (app_nil_r (preorder 0 a)), <- (app_nil_r (preorder 0 b)) in L.
  exact (proj1 (labels_alike _ a 0 b [] [] I I L)).
Qed.
Print Assumptions C110_form.

(** A parsed policy always prints, one line for each node. *)
Theorem C110_parsed (U : unicode) (printable : N -> bool) (P : pytext) (h : heap) (text : str) (last n' : Z) (a : ast) :
  unicode_ok U -> float_texts P -> ~ In nl (show_other P VNull) -> parse_text U text last = Ok (a, n') ->
  exists s ls, node_str printable P h a = Ok s /\ split_on nl s = ls ++ [[]] /\ List.length ls = num_nodes a.
Proof.
  intros uok FT NN H. pose proof (parsed_lexed U text last a n' uok H) as LX.
  assert (F : fresh U a). { unfold parse_text in H. apply bind_ok in H as (ts & _ & H). eapply parse_fresh; eauto. }
  assert (R : forall n, In n (subtrees a) -> exists x, result_str P h (n_result n) = Ok x /\ ~ In nl x).
  { intros n Hn. assert (L : lexed (n_tok n)) by (apply (LX n); [exact Hn|now left]). destruct L as (_ & _ & L).
    apply (fresh_sub U a F) in Hn. destruct n as [c t i r ks]. apply fresh_unfold in Hn as [Hn _]. cbn [n_result n_tok] in *.
    assert (V : forall o, val_of_tok t = o -> exists x, result_str P h o = Ok x /\ ~ In nl x).
    { intros o <-. unfold val_of_tok. destruct (t_val t) as [|s|z|f]; eexists; (split; [reflexivity|]).
      - vm_compute. intuition discriminate.
      - exact L.
      - apply str_of_Z_no_nl.
      - cbn [py_str py_repr]. intros I. pose proof (ft_chars P FT f) as C. rewrite Forall_forall in C. apply C in I. unfold number_char, nl in I. lia. }
    destruct c; cbn [init_result] in Hn;
      try (apply Ok_inj in Hn; subst r; eexists; split; [reflexivity|vm_compute; intuition discriminate]; fail);
      try (apply Ok_inj in Hn; apply V; exact Hn).
    destruct (t_val t); try discriminate. apply Ok_inj in Hn. subst r. eexists. split; [reflexivity|]. cbn [py_str].
      destruct (str_eqb _ _); [vm_compute; intuition discriminate|]. destruct (str_eqb _ _); vm_compute; intuition discriminate. }
  destruct (print_ok printable P h a 0) as [s Hs]. { intros n Hn. destruct (R n Hn) as (x & Hx & _). eauto. }
  destruct (C110_lines printable P h a s FT Hs) as (ls & E & L & _).
  { intros n x Hn Hx. destruct (R n Hn) as (y & Hy & K). rewrite Hy in Hx. apply Ok_inj in Hx. now subst y. }
  exists s, ls. auto.
Qed.
Print Assumptions C110_parsed.

(** str() of tokens of texts is the same exactly for the same type and value, signs of zeros apart. *)
Theorem C110_token (U : unicode) (printable : N -> bool) (P : pytext) (text text' : str) (ts ts' : list token) (t u : token) :
  unicode_ok U -> float_texts P -> lex_text U text = Ok ts -> lex_text U text' = Ok ts' -> In t ts -> In u ts' ->
  Forall code_point (value_text (t_val t)) -> Forall code_point (value_text (t_val u)) ->
  (token_str printable P t = token_str printable P u <->
   t_type t = t_type u /\ (t_val t = t_val u \/ exists s s', t_val t = TFloat (S754_zero s) /\ t_val u = TFloat (S754_zero s'))).
Proof.
  intros uok FT H H' T T' CT CU.
  assert (K : forall text ts t, lex_text U text = Ok ts -> In t ts -> kind_of (t_type t) (t_val t) /\ lexed t).
  { clear - uok. intros text ts t H I. apply (lex_text_iff U uok) in H as (ts' & -> & Tl). destruct I as [<-|I].
    - split; [now left|]. repeat split; [cbn; lia|intros []].
    - pose proof (tiles_kinds _ _ _ _ Tl) as K. apply tiles_lexed in Tl; [|lia]. rewrite Forall_forall in K, Tl. auto. }
  destruct (K _ _ _ H T) as [Kt (_ & Bt & _)]. destruct (K _ _ _ H' T') as [Ku (_ & Bu & _)]. clear K H H' T T'.
  unfold token_str.
  assert (NE : forall v, val_truthy v = true -> is_nil (val_str printable P v) = false).
  { intros [|[|c s]|z|f] E; try discriminate; try reflexivity; cbn [val_str].
    - destruct (val_nonempty printable P FT (TInt z) E). reflexivity.
    - destruct (val_nonempty printable P FT (TFloat f) E). reflexivity. }
  split.
  - intros E.
    assert (G : exists x y, lit "Token(" ++ type_name (t_type t) ++ x = lit "Token(" ++ type_name (t_type u) ++ y /\
      stops name_char x /\ stops name_char y /\
      (if val_truthy (t_val t) then x = lit ", " ++ (if ttype_eqb (t_type t) STRING then val_repr printable P (t_val t) else val_str printable P (t_val t)) ++ lit ")" else x = lit ")") /\
      (if val_truthy (t_val u) then y = lit ", " ++ (if ttype_eqb (t_type u) STRING then val_repr printable P (t_val u) else val_str printable P (t_val u)) ++ lit ")" else y = lit ")")).
    { destruct (val_truthy (t_val t)) eqn:Et; destruct (val_truthy (t_val u)) eqn:Eu;
        rewrite ?(NE _ Et), ?(NE _ Eu) in E; cbn [andb negb] in E;
        do 2 eexists; (split; [exact E|]); (split; [|split; [|split; reflexivity]]); cbn; unfold name_char; lia. }
    clear E. destruct G as (x & y & E & Sx & Sy & X & Y). apply app_inv_head in E.
    apply (span_eq name_char) in E as [E1 E2]; auto using type_name_chars. apply type_name_inj in E1. split; [exact E1|]. subst y.
    destruct (val_truthy (t_val t)) eqn:Et; destruct (val_truthy (t_val u)) eqn:Eu.
    + left. subst x. apply app_inv_head, app_inv_tail in Y. rewrite <- E1 in Y, Ku. clear - Y Kt Ku CT CU FT Et Eu.
      destruct (t_val t) as [|s|z|f]; [discriminate|..]; (destruct (t_val u) as [|s'|z'|f']; [discriminate|..]);
        try (exfalso; destruct (t_type t); cbn [kind_of] in Kt, Ku;
             repeat match goal with H : _ \/ _ |- _ => destruct H | H : exists _, _ |- _ => destruct H end; discriminate).
      * destruct (ttype_eqb (t_type t) STRING); cbn [val_str] in Y; [|congruence].
        apply (val_prefix_at printable P FT 41 _ _ [] []); auto; [unfold number_char; lia|]. now rewrite Y.
      * assert (Y' : str_of_Z z = str_of_Z z') by (destruct (ttype_eqb (t_type t) STRING); exact Y). apply Z_inj in Y'. congruence.
      * assert (Y' : show_float P f = show_float P f') by (destruct (ttype_eqb (t_type t) STRING); exact Y). apply (ft_inj P FT) in Y'. congruence.
    + subst x. discriminate.
    + subst x. discriminate.
    + clear X Y Sx Sy. apply truthy_empty in Et, Eu. apply Bt in Et. apply Bu in Eu. rewrite <- E1 in Eu.
      destruct (t_type t); cbn [blank_of] in Et, Eu; try (left; congruence). destruct Et as [s Et]. destruct Eu as [s' Eu]. right. eauto.
  - intros [E [V|(s & s' & V & V')]]; [now rewrite E, V|]. rewrite V, V', E. reflexivity.
Qed.
Print Assumptions C110_token.

(** token_string() of a lexer gives the types of its tokens, one word each. *)
Theorem C110_tokens (ts : list token) : ts <> [] ->
  split_on 32 (lexer_str ts) = map (fun t => type_name (t_type t)) ts.
Proof.
  intros NE. unfold lexer_str. assert (F : Forall (fun w => w <> [] /\ ~ In 32%N w) (map (fun t => type_name (t_type t)) ts)).
  { apply Forall_forall. intros w Hw. apply in_map_iff in Hw as (t & <- & _). pose proof (type_name_chars (t_type t)) as C. split.
    - destruct (type_head (t_type t)) as (c & r & -> & _). discriminate.
    - intros I. rewrite Forall_forall in C. apply C in I. unfold name_char in I. lia. }
  assert (NE' : map (fun t => type_name (t_type t)) ts <> []) by (destruct ts; [congruence|discriminate]).
  revert F NE'. generalize (map (fun t => type_name (t_type t)) ts). intros ws F NE'. unfold token_string.
  induction F as [|w ws [W1 W2] F IH]; [now destruct NE'|]. destruct ws as [|v ws].
  - cbn [flat_map]. rewrite app_nil_r, removelast_last. clear - W2. induction w as [|c w IH]; [reflexivity|]. cbn [split_on].
    destruct (N.eqb_spec c 32) as [->|_]; [destruct W2; now left|]. rewrite IH; [reflexivity|]. intros I. apply W2. now right.
  - cbn [flat_map] in *. rewrite <- app_assoc. cbn [app]. rewrite removelast_app, removelast_cons_ne.
    + rewrite split_app by exact W2. f_equal. apply IH. discriminate.
    + intros E. apply app_eq_nil in E as [E _]. apply app_eq_nil in E as [_ E]. discriminate.
    + discriminate.
Qed.
Print Assumptions C110_tokens.

(** str() of a symbol table fails unless it is empty. *)
Theorem C110_table (tb : table) : (exists s, table_str tb = Ok s) <-> tb = [].
Proof.
  split; [|intros ->; cbn [table_str]; eauto]. destruct tb; [reflexivity|]. intros [s H]. discriminate.
Qed.
Print Assumptions C110_table.

(** ** C111: repr() *)

(** repr() tells two trees apart exactly if they differ in a class, a type, a value that is not empty,
    a position in the text or the children. *)
Theorem C111_repr (printable : N -> bool) (P : pytext) (a b : ast) :
  float_texts P -> chars_ok a -> chars_ok b ->
  (node_repr printable P a = node_repr printable P b <-> same_code a b).
Proof.
  intros FT A B. split; [|apply same_node; exact FT]. intros E.
  apply (node_prefix printable P FT a b [] []); auto. now rewrite E.
Qed.
Print Assumptions C111_repr.

Theorem C111_token (printable : N -> bool) (P : pytext) (t u : token) :
  float_texts P -> Forall code_point (value_text (t_val t)) -> Forall code_point (value_text (t_val u)) ->
  (token_repr printable P t = token_repr printable P u <-> same_token t u).
Proof.
  intros FT A B. split; [|apply token_same; exact FT]. intros E.
  apply (token_prefix printable P FT t u [] []); auto. now rewrite E.
Qed.
Print Assumptions C111_token.

(** Of parsed policies it shows everything but ids, results and the signs of zeros. *)
Theorem C111_parsed (U : unicode) (printable : N -> bool) (P : pytext) (text text' : str) (last last' n n' : Z) (a b : ast) :
  unicode_ok U -> float_texts P -> chars_ok a -> chars_ok b ->
  parse_text U text last = Ok (a, n) -> parse_text U text' last' = Ok (b, n') ->
  (node_repr printable P a = node_repr printable P b <-> equal_code a b).
Proof.
  intros uok FT A B Ha Hb. rewrite (C111_repr printable P a b FT A B). split.
  - intros S. apply same_equal; auto; [exact (parsed_lexed U text last a n uok Ha)|exact (parsed_lexed U text' last' b n' uok Hb)].
  - apply equal_same.
Qed.
Print Assumptions C111_parsed.

(** ** Cases *)

(** A text for every float. *)
Definition ex_show (f : pyfloat) : str :=
  match f with
  | S754_zero s => lit (if s then "-0.0" else "0.0")
  | S754_infinity s => lit (if s then "-inf" else "inf")
  | S754_nan => lit "nan"
  | S754_finite s m e => (if s then [45%N] else []) ++ str_of_Z (Z.pos m) ++ 101%N :: str_of_Z e
  end.
Definition ex_python : pytext := PyText ex_show (fun _ => None) (fun l => l) (fun s => s) (fun _ => lit "<object>").

Lemma ex_texts : float_texts ex_python.
Proof.
  assert (D : forall z, Forall number_char (str_of_Z z)) by (intros z; eapply Forall_impl; [exact digit_number|apply Z_chars]).
  assert (E : number_char 101%N) by (unfold number_char; lia).
  split; cbn [show_float ex_python].
  - intros [s|s| |s m e]; cbn [ex_show].
    1-3: try destruct s; apply Forall_forall; intros c H; vm_compute in H; unfold number_char;
         repeat match goal with H : _ \/ _ |- _ => destruct H as [<-|H] | H : False |- _ => destruct H end; lia.
    apply Forall_app. split; [destruct s; repeat constructor; unfold number_char; lia|]. apply Forall_app. auto.
  - intros f F. rewrite Forall_forall in F.
    assert (K : exists c, In c (ex_show f) /\ ~ digit_char c).
    { destruct f as [s|s| |s m e]; cbn [ex_show].
      - exists 46%N. split; [destruct s; vm_compute; auto|unfold digit_char; lia].
      - exists 110%N. split; [destruct s; vm_compute; auto|unfold digit_char; lia].
      - exists 110%N. split; [vm_compute; auto|unfold digit_char; lia].
      - exists 101%N. split; [|unfold digit_char; lia]. apply in_app_iff. right. apply in_app_iff. right. now left. }
    destruct K as (c & I & N). exact (N (F c I)).
  - assert (HE : forall s m e, In 101%N (ex_show (S754_finite s m e))).
    { intros s m e. cbn [ex_show]. apply in_app_iff. right. apply in_app_iff. right. now left. }
    assert (NE : forall f, match f with S754_finite _ _ _ => False | _ => True end -> ~ In 101%N (ex_show f)).
    { intros [s|s| |s m e] K; try destruct K; try destruct s; vm_compute; intuition discriminate. }
    assert (SZ : forall m e, stops digit_char (101%N :: str_of_Z e) /\ exists c r, str_of_Z (Z.pos m) = c :: r /\ c <> 45%N).
    { intros m e. split; [cbn; unfold digit_char; lia|].
      destruct (dec_tail (N.to_nat (N.log2 (Z.abs_N (Z.pos m)))) (Z.abs_N (Z.pos m)) []) as ([|c r] & Em & Nd & F); [congruence|].
      exists c, r. unfold str_of_Z. cbv zeta. change (Z.pos m <? 0) with false. rewrite Em, app_nil_r. split; [reflexivity|].
      inversion F; subst. lia. }
    intros f g H. destruct f as [s|s| |s m e]; destruct g as [s'|s'| |s' m' e'];
      try (try destruct s; try destruct s'; (reflexivity || (vm_compute in H; discriminate H)); fail);
      try (exfalso; match type of H with _ = ex_show (S754_finite ?a ?b ?c) => pose proof (HE a b c) as K; rewrite <- H in K; revert K; apply NE; exact I end);
      try (exfalso; match type of H with ex_show (S754_finite ?a ?b ?c) = _ => pose proof (HE a b c) as K; rewrite H in K; revert K; apply NE; exact I end).
    cbn [ex_show] in H. destruct (SZ m e) as (S1 & c & r & E1 & N1). destruct (SZ m' e') as (S2 & c' & r' & E2 & N2).
    assert (G : s = s' /\ str_of_Z (Z.pos m) ++ 101%N :: str_of_Z e = str_of_Z (Z.pos m') ++ 101%N :: str_of_Z e').
    { destruct s; destruct s'; cbn [app] in H; auto.
      - injection H as H. auto.
      - rewrite E2 in H. cbn [app] in H. congruence.
      - rewrite E1 in H. cbn [app] in H. congruence. }
    destruct G as [-> G]. apply (span_eq digit_char) in G as [G1 G2]; auto using Z_chars.
    injection G2 as G2. apply Z_inj in G1, G2. injection G1 as ->. subst. reflexivity.
Qed.

Definition is_uni (c : N) : bool := true.
Definition ex_policy : str := lit "user.age >= 18 OR NOT (user.name IN {""it's"", 0})".
(** The tree of a text. *)
Definition tree (text : str) : ast :=
  match parse_text ascii_only text 0 with Ok (a, _) => a | Err _ => Node CAst (Tok END 0 TNone) 0 None [] end.
Definition lines (l : list string) : str := flat_map (fun s => lit s ++ [nl]) l.

(** A policy as it is printed before it is evaluated. *)
Example ex_printed : (exists n, parse_text ascii_only ex_policy 0 = Ok (tree ex_policy, n)) /\
  node_str is_uni ex_python [] (tree ex_policy) = Ok (lines [
    "BOOL_OP: 'OR' -> None";
    "   OP: '>=' -> None";
    "      USR_ATT: 'age' -> None";
    "      INT: 18 -> 18";
    "   NOT_OP: 'NOT' -> None";
    "      OP: 'IN' -> None";
    "         USR_ATT: 'name' -> None";
    "         LSET: None -> None";
    "            STRING: ""it's"" -> it's";
    "            INT: 0 -> 0"]%string) /\ num_nodes (tree ex_policy) = 10%nat.
Proof. split; [exists 10; vm_compute; reflexivity|]. split; vm_compute; reflexivity. Qed.

Example ex_repr : exists a n, parse_text ascii_only ex_policy 0 = Ok (a, n) /\ chars_ok a /\
  node_repr is_uni ex_python a = lit
    "BoolOpNode(Token(TokenType.BOOL_OP, 15, 'OR'), OpNode(Token(TokenType.OP, 9, '>='), UsrAttNode(Token(TokenType.USR_ATT, 0, 'age')), IntValNode(Token(TokenType.INT, 12, 18))), NotNode(Token(TokenType.NOT_OP, 18, 'NOT'), OpNode(Token(TokenType.OP, 33, 'IN'), UsrAttNode(Token(TokenType.USR_ATT, 23, 'name')), SetNode(Token(TokenType.LSET, 36), Token(TokenType.RSET, 46), [StringValNode(Token(TokenType.STRING, 37, ""it's"")), IntValNode(Token(TokenType.INT, 45))]))))".
Proof.
  destruct (parse_text ascii_only ex_policy 0) as [[a n]|] eqn:E; [|vm_compute in E; discriminate]. exists a, n.
  split; [reflexivity|]. vm_compute in E. injection E as <- <-. split; [|vm_compute; reflexivity].
  intros m t M T. cbn [subtrees n_kids flat_map app] in M.
  repeat (destruct M as [<-|M]; [cbn in T; repeat (destruct T as [<-|T]; [cbn [t_val value_text]; repeat (constructor; [reflexivity|]); constructor|]); destruct T|]).
  destruct M.
Qed.

Example ex_words : exists ts, lex_text ascii_only (lit "user.a = {1}") = Ok ts /\
  lexer_str ts = lit "START USR_ATT OP LSET INT RSET END".
Proof. vm_compute. eauto. Qed.

(** A string constant with a line break in its repr() is written with an escape. *)
Example ex_escape : str_repr is_uni ([39; 34; 10; 92; 7; 233]%N) = lit "'\'""\n\\\x07" ++ [233; 39]%N.
Proof. vm_compute. reflexivity. Qed.

(** ** What is not told *)

(** After evaluating, the value of an attribute with a line break gives the printed tree more lines
    than it has nodes. *)
Definition ex_heap : heap := [Sym (lit "user.a") (lit "a") USR_ATT ST_STRING (VStr (lit "x>" ++ [nl] ++ lit "   INT: 7 -> 7"))].
Definition ex_run : interp * res (option rval) :=
  evaluate ascii_only ex_heap (interp_new (tree (lit "user.a = ""b"""))) (Some [(lit "user.a", 0%nat)]) (Some 3).
Theorem C110_forged_refuted :
  (exists n, parse_text ascii_only (lit "user.a = ""b""") 0 = Ok (tree (lit "user.a = ""b"""), n)) /\
  (exists r, snd ex_run = Ok r) /\ num_nodes (i_ast (fst ex_run)) = 3%nat /\
  node_str is_uni ex_python ex_heap (i_ast (fst ex_run)) = Ok (lines [
    "OP: '=' -> FALSE";
    "   USR_ATT: 'a' -> <user.a, STRING, x>";
    "   INT: 7 -> 7>";
    "   STRING: 'b' -> b"]%string).
Proof.
  split; [exists 3; vm_compute; reflexivity|]. split; [eexists; vm_compute; reflexivity|]. split; vm_compute; reflexivity.
Qed.
Print Assumptions C110_forged_refuted.

(** The constant 0 of a policy is not shown by repr(), which is that of a tree without the value. *)
Theorem C111_zero_refuted : exists text a n b,
  parse_text ascii_only text 0 = Ok (a, n) /\ ast_eqb a b = false /\
  (forall printable P, node_repr printable P a = node_repr printable P b).
Proof.
  destruct (parse_text ascii_only (lit "user.a = 0") 0) as [[a n]|] eqn:E; [|vm_compute in E; discriminate].
  exists (lit "user.a = 0"), a, n.
  exists (Node COp (Tok OP 7 (TStr (lit "="))) 0 None [Node CUsr (Tok USR_ATT 0 (TStr (lit "a"))) 0 None []; Node CInt (Tok INT 9 TNone) 0 None []]).
  split; [exact E|]. vm_compute in E. injection E as <- <-. split; [vm_compute; reflexivity|]. intros printable P. reflexivity.
Qed.
Print Assumptions C111_zero_refuted.
