(** * LexProps: properties C01-C07 (lexer) *)

From Coq Require Import NArith ZArith List Bool String Lia.
From Verif Require Import PyBase PyNum Lexer LexSpec LexProofs LexProofs2 LexCase.
Import ListNotations.
Open Scope Z_scope.

(** The hypothesis on the Unicode tables is satisfiable. *)
Lemma ascii_only_ok : unicode_ok ascii_only.
Proof.
  split; cbn; try discriminate.
  - intros s ty v H K. destruct K; discriminate.
  - intros s ty H K. destruct K; discriminate.
Qed.

(** ** C01 *)

(** Tokenizing either gives START ... END with neither in between, or raises one
    of three exceptions under the stated conditions; in particular the fuel of
    the model never runs out, i.e. it always terminates. *)
Theorem C01_tokenize_total : forall U text, unicode_ok U ->
  (exists body, lex_text U text =
       Ok (Tok START 0 TNone :: body ++ [Tok END (len text) TNone]) /\
     Forall (fun t => t_type t <> START /\ t_type t <> END) body) \/
  (exists p, lex_text U text = Err (ELexer p)) \/
  (lex_text U text = Err EAttribute /\
   exists pre c w, text = pre ++ (c :: w) ++ lit "." /\ letter U c /\ Forall (id_char U) w) \/
  (lex_text U text = Err EValue /\
   exists x, In x text /\ asc x = false /\ isdigit U x = true).
Proof.
  intros U text uok. destruct (lex_text U text) as [toks|e] eqn:E.
  - left. apply (lex_text_iff U uok) in E as (ts & -> & Ht).
    apply tiles_shape in Ht as (body & -> & Hb). exists body. split; auto.
  - right. apply (lex_text_err U uok) in E.
    destruct E as [(p & -> & _)|[(-> & H)|(-> & H)]]; eauto.
Qed.

(** On ASCII text ValueError is impossible. *)
Theorem C01_ascii : forall U text e, unicode_ok U -> is_ascii text = true ->
  lex_text U text = Err e ->
  (exists p, e = ELexer p) \/
  (e = EAttribute /\ exists pre c w, text = pre ++ (c :: w) ++ lit "." /\
     letter U c /\ Forall (id_char U) w).
Proof.
  intros U text e uok Ha E. apply (lex_text_err U uok) in E.
  destruct E as [(p & -> & _)|[(-> & H)|(-> & x & Hx & Hn & _)]]; eauto.
  exfalso. unfold is_ascii in Ha. rewrite forallb_forall in Ha. apply Ha in Hx. congruence.
Qed.

(** ** C02 *)

(** Tokenizing succeeds with [toks] exactly when [toks] is START followed by a
    tiling of the text by lexemes of the HGPL lexical grammar. *)
Theorem C02_tokens_tile : forall U text toks, unicode_ok U ->
  (lex_text U text = Ok toks <->
   exists ts, toks = Tok START 0 TNone :: ts /\ tiles U 0 text ts).
Proof. intros; now apply lex_text_iff. Qed.

Lemma increasing_nth k b ts t : increasing b ts -> nth_error ts k = Some t -> b <= t_pos t.
Proof.
  revert b ts; induction k as [|k IH]; intros b ts H; destruct H as [|b t' ts Hb H]; try discriminate; cbn.
  - now intros [= ->].
  - intros Hk. apply (IH _ _ H) in Hk. lia.
Qed.

Theorem C02_positions_increase : forall U text toks, unicode_ok U ->
  lex_text U text = Ok toks ->
  forall i j t1 t2, (1 <= i < j)%nat ->
  nth_error toks i = Some t1 -> nth_error toks j = Some t2 -> t_pos t1 < t_pos t2.
Proof.
  intros U text toks uok H. apply (lex_text_iff U uok) in H as (ts & -> & Ht).
  apply (tiles_increasing U uok) in Ht. revert Ht. generalize 0. clear.
  induction ts as [|t ts IH]; intros b Hi i j t1 t2 Hij H1 H2.
  - destruct i as [|[|i]]; try lia; discriminate.
  - inversion Hi as [|? ? ? Hb Hr]; subst. destruct i as [|[|i]]; try lia.
    + cbn in H1. injection H1 as <-. destruct j as [|[|j]]; try lia. cbn in H2.
      pose proof (increasing_nth _ _ _ _ Hr H2). lia.
    + destruct j as [|[|j]]; try lia. cbn in H1, H2.
      apply (IH _ Hr (S i) (S j) t1 t2); auto. lia.
Qed.

(** The tokens of a text are unique. *)
Theorem C02_tokens_unique : forall U text ts1 ts2, unicode_ok U ->
  tiles U 0 text ts1 -> tiles U 0 text ts2 -> ts1 = ts2.
Proof.
  intros U text ts1 ts2 uok H1 H2.
  assert (E1 : lex_text U text = Ok (start_token :: ts1)) by (apply lex_text_iff; eauto).
  assert (E2 : lex_text U text = Ok (start_token :: ts2)) by (apply lex_text_iff; eauto).
  congruence.
Qed.

(** ** C03 *)

Theorem C03_case_insensitive : forall U a b, is_ascii a = true -> recased a b ->
  match lex_text U a, lex_text U b with
  | Ok ts1, Ok ts2 =>
      Forall2 (fun t1 t2 =>
        t_type t1 = t_type t2 /\ t_pos t1 = t_pos t2 /\
        match t_type t1 with
        | STRING | USR_ATT | OBJ_ATT | ENV_ATT | ADM_ATT | CON_ATT =>
            exists x y, t_val t1 = TStr x /\ t_val t2 = TStr y /\ recased x y
        | _ => t_val t1 = t_val t2
        end) ts1 ts2
  | Err e1, Err e2 => e1 = e2
  | _, _ => False
  end.
Proof. exact lex_text_recased. Qed.

(** ** C04 *)

(** Every text that tokenizes splits into lexemes such that any other layout of
    those lexemes, which keeps separated what was separated, tokenizes to the
    same types and values. *)
Theorem C04_relayout : forall U text toks, unicode_ok U ->
  lex_text U text = Ok toks ->
  exists it last, text = layout it last /\
    (List.length it + 2 = List.length toks)%nat /\
    (forall k w s, nth_error it k = Some (w, s) ->
       exists t rest, nth_error toks (S k) = Some t /\ lexeme U s rest (t_type t) (t_val t)) /\
    forall it' last', relayout U it it' -> blank U last' ->
    exists toks', lex_text U (layout it' last') = Ok toks' /\
      map (fun t => (t_type t, t_val t)) toks' = map (fun t => (t_type t, t_val t)) toks.
Proof. intros; now apply lex_relayout. Qed.

(** Lexemes separated by any non-empty white space are read back one by one. *)
Theorem C04_separated : forall U items last tvs, unicode_ok U ->
  Forall2 (fun it tv => blank U (fst it) /\ lexeme U (snd it) [] (fst tv) (snd tv)) items tvs ->
  Forall (fun it => fst it <> []) (tl items) -> blank U last ->
  exists toks, lex_text U (layout items last) = Ok toks /\
    map (fun t => (t_type t, t_val t)) toks = (START, TNone) :: tvs ++ [(END, TNone)].
Proof. intros; now apply lex_separated. Qed.

(** ** C05 *)

Theorem C05_att_list : forall U text l, unicode_ok U ->
  tokenize U (lexer_init text) = Ok l ->
  lx_atts l = filter (fun t => match t_type t with
                               | USR_ATT | OBJ_ATT | ENV_ATT | ADM_ATT | CON_ATT => true
                               | _ => false end) (lx_toks l).
Proof. intros U text l uok H. exact (tokenize_atts U uok text l H). Qed.

(** ** C06 *)

Theorem C06_error_position : forall U text p, unicode_ok U ->
  lex_text U text = Err (ELexer p) -> 0 <= p <= len text.
Proof.
  intros U text p uok H. apply (lex_text_err U uok) in H.
  destruct H as [(q & [= <-] & H)|[(? & _)|(? & _)]]; try discriminate. lia.
Qed.

(** ** C07 *)

(** [nexts k]: call next() [k] times, discarding the returned tokens. *)
Theorem C07_incremental : forall U k text l, unicode_ok U ->
  nexts U k (lexer_init text) = Ok l -> tokenize U l = tokenize U (lexer_init text).
Proof. intros U k text l uok H. exact (nexts_tokenize U uok k text l H). Qed.

Theorem C07_idempotent : forall U text l, unicode_ok U ->
  tokenize U (lexer_init text) = Ok l ->
  lex_next U l = Ok (None, l) /\ tokenize U l = Ok l.
Proof. intros U text l uok H. exact (tokenize_again U uok text l H). Qed.

(** ** Concrete cases *)

Example ex_lex :
  lex_text ascii_only (lit "User.Age >= -18 and not(""A b"" IN env.x)") =
  Ok [Tok START 0 TNone; Tok USR_ATT 0 (TStr (lit "Age")); Tok OP 9 (TStr (lit ">="));
      Tok INT 12 (TInt (-18)); Tok BOOL_OP 16 (TStr (lit "AND")); Tok NOT_OP 20 (TStr (lit "NOT"));
      Tok LPARN 23 TNone; Tok STRING 24 (TStr (lit "A b")); Tok OP 30 (TStr (lit "IN"));
      Tok ENV_ATT 33 (TStr (lit "x")); Tok RPARN 38 TNone; Tok END 39 TNone].
Proof. vm_compute. reflexivity. Qed.

(** user. at the end leaks an AttributeError; a lone '!' is a LexerError past the end. *)
Example ex_lex_attribute_error : lex_text ascii_only (lit "user.") = Err EAttribute.
Proof. vm_compute. reflexivity. Qed.
Example ex_lex_error_at_end : lex_text ascii_only (lit "user.a !") = Err (ELexer 8).
Proof. vm_compute. reflexivity. Qed.
Example ex_lex_bad_word : lex_text ascii_only (lit "true or maybe") = Err (ELexer 8).
Proof. vm_compute. reflexivity. Qed.

(** A superscript digit (isdigit, but not accepted by int()) leaks a ValueError. *)
Definition with_superscript : unicode := {|
  u_space := fun _ => false; u_alpha := fun _ => false; u_digit := fun c => (c =? 178)%N;
  u_decimal := fun _ => None; u_lower := fun s => s; u_upper := fun s => s |}.
Lemma with_superscript_ok : unicode_ok with_superscript.
Proof.
  split; cbn; try discriminate.
  - intros s ty v H K. destruct K; discriminate.
  - intros s ty H K. destruct K; discriminate.
Qed.
Example ex_lex_value_error : lex_text with_superscript (lit "user.a = 1" ++ [178%N]) = Err EValue.
Proof. vm_compute. reflexivity. Qed.

Example ex_recased :
  is_ascii (lit "User.AGE in {1} AND true") = true /\
  recased (lit "User.AGE in {1} AND true") (lit "uSER.age IN {1} and TRUE").
Proof. vm_compute. auto. Qed.

Example ex_relayout :
  relayout ascii_only [([], lit "user.a"); ([], lit ">"); ([], lit "1")]
    [(lit "  ", lit "user.a"); (lit " ", lit ">"); ([], lit "1")].
Proof.
  repeat (apply rl_cons; [repeat constructor|repeat constructor|congruence|]). constructor.
Qed.

Example ex_incremental :
  exists l, nexts ascii_only 2 (lexer_init (lit "not true")) = Ok l /\ List.length (lx_toks l) = 3%nat.
Proof. eexists. split; vm_compute; reflexivity. Qed.

Example ex_separated :
  Forall2 (fun it tv => blank ascii_only (fst it) /\ lexeme ascii_only (snd it) [] (fst tv) (snd tv))
    [([], lit "NOT"); (lit " ", lit "{")] [(NOT_OP, TStr (lit "NOT")); (LSET, TNone)].
Proof.
  constructor; [|constructor; [|constructor]]; cbn [fst snd].
  - split; [constructor|]. eapply lx_keyword with (c := 78%N) (s' := lit "OT"); try reflexivity.
    + repeat constructor.
    + apply kw_not.
  - split; [repeat constructor|]. apply lx_symbol, sy_lset.
Qed.

Print Assumptions C01_tokenize_total.
Print Assumptions C01_ascii.
Print Assumptions C02_tokens_tile.
Print Assumptions C02_positions_increase.
Print Assumptions C02_tokens_unique.
Print Assumptions C03_case_insensitive.
Print Assumptions C04_relayout.
Print Assumptions C04_separated.
Print Assumptions C05_att_list.
Print Assumptions C06_error_position.
Print Assumptions C07_incremental.
Print Assumptions C07_idempotent.
