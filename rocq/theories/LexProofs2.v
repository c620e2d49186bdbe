(** * LexProofs2: theorems about whole texts *)

From Coq Require Import NArith ZArith List Bool String Lia.
From Verif Require Import PyBase PyNum Lexer LexSpec LexProofs.
Import ListNotations.
Open Scope Z_scope.

Lemma last_type_snoc ts t : last_type (ts ++ [t]) = Some (t_type t).
Proof. unfold last_type. now rewrite rev_app_distr. Qed.

Lemma list_length_len s : Z.of_nat (List.length s) = len s.
Proof. reflexivity. Qed.

Lemma lexeme_type U s r ty v :
  lexeme U s r ty v -> ty <> START /\ ty <> END /\ ty <> UNK_ATT /\ ty <> UNK_ID.
Proof.
  destruct 1 as [ty v Hs|E Hn|E Hn|body E Hb|neg ds n E Hne Hf Hv Hn|neg ds es n E Hne Hnes Hf Hfe Hv Hn
                |c s' kw ty v E Hc Hf Hl Hk Hn|c s' d id' cat ty E Hc Hf Hf2 Hl Hk Hn];
  try (repeat split; discriminate);
  try (destruct Hs; repeat split; discriminate);
  try (destruct Hk; repeat split; discriminate).
Qed.

Definition att_tokens (ts : list token) : list token :=
  filter (fun t => is_att_type (t_type t)) ts.

Section WithUnicode.
Variable U : unicode.
Hypothesis uok : unicode_ok U.

Lemma lex_next_cases l ot l' :
  lex_next U l = Ok (ot, l') ->
  (ot = None /\ Forall (space U) (lx_rest l) /\ last_type (lx_toks l) = Some END /\
   lx_rest l' = [] /\ lx_toks l' = lx_toks l /\ lx_atts l' = lx_atts l) \/
  (exists t, ot = Some t /\ t = Tok END (lx_pos l + len (lx_rest l)) TNone /\
     Forall (space U) (lx_rest l) /\ last_type (lx_toks l) <> Some END /\
     l' = Lx (lx_pos l + len (lx_rest l) + 1) [] (lx_toks l ++ [t]) (lx_atts l)) \/
  (exists t ws s, ot = Some t /\ lx_rest l = ws ++ s ++ lx_rest l' /\ s <> [] /\
     Forall (space U) ws /\ t_pos t = lx_pos l + len ws /\
     lexeme U s (lx_rest l') (t_type t) (t_val t) /\
     lx_pos l' = lx_pos l + len ws + len s /\
     lx_toks l' = lx_toks l ++ [t] /\
     lx_atts l' = lx_atts l ++ att_tokens [t]).
Proof.
  unfold lex_next. destruct (skip_ws U (lx_pos l) (lx_rest l)) as [p r] eqn:Es.
  apply skip_ws_ok in Es as (ws & Er & Hf & -> & Hn).
  destruct r as [|c r].
  - rewrite app_nil_r in Er. subst ws.
    destruct (last_type (lx_toks l)) as [ty|] eqn:El.
    + destruct ty; intros [= <- <-];
      try (right; left; eexists; split; [reflexivity|]; repeat split; auto; try discriminate).
      left. cbn. repeat split; auto.
    + intros [= <- <-].
      right; left; eexists; split; [reflexivity|]; repeat split; auto; discriminate.
  - intros H. apply bind_ok in H as ([[t p'] r'] & H & [= <- <-]).
    apply lex_char_ok in H; auto. destruct H as (s & Hs & Hne & -> & Ht & Hl).
    right; right. exists t, ws, s. cbn [lx_rest lx_pos lx_toks lx_atts].
    repeat split; auto.
    + now rewrite Er, Hs.
    + cbn. destruct (is_att_type (t_type t)); auto. now rewrite app_nil_r.
Qed.

Lemma lex_next_run p ws s rest ty v toks atts :
  Forall (space U) ws -> lexeme U s rest ty v ->
  lex_next U (Lx p (ws ++ s ++ rest) toks atts) =
  Ok (Some (Tok ty (p + len ws) v),
      Lx (p + len ws + len s) rest (toks ++ [Tok ty (p + len ws) v])
         (atts ++ att_tokens [Tok ty (p + len ws) v])).
Proof.
  intros Hw Hl. unfold lex_next. cbn [lx_pos lx_rest lx_toks lx_atts].
  destruct (lexeme_start U uok _ _ _ _ Hl) as (c & s' & -> & Hc).
  rewrite skip_ws_run by auto.
  cbn [app]. destruct (lex_char_run U uok _ _ _ _ (p + len ws) Hl) as (c' & s'' & E & H).
  injection E as <- <-. rewrite H. cbn [bind t_type att_tokens filter].
  do 3 f_equal. destruct (is_att_type ty); auto. now rewrite app_nil_r.
Qed.

Lemma lex_next_end p ws toks atts :
  Forall (space U) ws -> last_type toks <> Some END ->
  lex_next U (Lx p ws toks atts) =
  Ok (Some (Tok END (p + len ws) TNone),
      Lx (p + len ws + 1) [] (toks ++ [Tok END (p + len ws) TNone]) atts).
Proof.
  intros Hw Hl. unfold lex_next. cbn [lx_pos lx_rest lx_toks lx_atts].
  replace ws with (ws ++ []) at 1 by apply app_nil_r.
  rewrite skip_ws_run; cbn; auto.
  destruct (last_type toks) as [[]|]; congruence.
Qed.

Lemma lex_next_none p toks atts :
  last_type toks = Some END ->
  lex_next U (Lx p [] toks atts) = Ok (None, Lx p [] toks atts).
Proof. intros H. unfold lex_next. cbn. now rewrite H. Qed.

Lemma tokenize_loop_sound fuel l l' :
  tokenize_loop U fuel l = Ok l' -> last_type (lx_toks l) <> Some END ->
  exists ts, lx_toks l' = lx_toks l ++ ts /\ tiles U (lx_pos l) (lx_rest l) ts /\
             lx_atts l' = lx_atts l ++ att_tokens ts.
Proof.
  revert l; induction fuel as [|fuel IH]; intros l; cbn [tokenize_loop]; [discriminate|].
  intros H Hlast. apply bind_ok in H as ([ot l1] & H1 & H).
  apply lex_next_cases in H1.
  destruct H1 as [(-> & _ & Hl & _)|[(t & -> & Et & Hw & _ & ->)|(t & ws & s & -> & Er & Hne & Hw & Hp & Hl & Hp' & Ht & Ha)]].
  - congruence.
  - destruct fuel; cbn [tokenize_loop] in H; [discriminate|].
    rewrite lex_next_none in H. 2:{ rewrite last_type_snoc. now subst t. }
    cbn [bind] in H. injection H as <-. cbn [lx_toks lx_atts]. subst t.
    eexists. split; [reflexivity|]. split.
    + now apply tiles_end.
    + cbn. now rewrite app_nil_r.
  - apply IH in H.
    2:{ rewrite Ht, last_type_snoc. apply lexeme_type in Hl. intros [= E]. tauto. }
    destruct H as (ts & Hts & Htl & Hat). exists (t :: ts).
    rewrite Hts, Ht, <- app_assoc. split; [reflexivity|]. split.
    + rewrite Er. destruct t as [ty tp tv]. cbn in *. subst tp.
      apply tiles_cons; auto. now rewrite <- Hp'.
    + rewrite Hat, Ha, <- app_assoc. f_equal. cbn.
      destruct (is_att_type (t_type t)); reflexivity.
Qed.

Lemma tokenize_loop_complete p rest ts :
  tiles U p rest ts ->
  forall fuel toks atts, last_type toks <> Some END -> (List.length rest + 2 <= fuel)%nat ->
  exists p', tokenize_loop U fuel (Lx p rest toks atts) =
             Ok (Lx p' [] (toks ++ ts) (atts ++ att_tokens ts)).
Proof.
  induction 1 as [p ws Hw|p ws s rest ty v ts Hw Hl Ht IH]; intros fuel toks atts Hlast Hf.
  - destruct fuel as [|[|fuel]]; try lia. cbn [tokenize_loop].
    rewrite lex_next_end by auto. cbn [bind].
    rewrite lex_next_none by now rewrite last_type_snoc. cbn [bind].
    eexists. cbn. now rewrite app_nil_r.
  - destruct fuel as [|fuel]; try lia. cbn [tokenize_loop].
    rewrite (lex_next_run _ _ _ _ _ _ _ _ Hw Hl). cbn [bind].
    destruct (lexeme_start U uok _ _ _ _ Hl) as (c & s' & Es & _).
    destruct (IH fuel (toks ++ [Tok ty (p + len ws) v]) (atts ++ att_tokens [Tok ty (p + len ws) v]))
      as (p' & E).
    + rewrite last_type_snoc. apply lexeme_type in Hl. cbn. intros [= E]. tauto.
    + rewrite !app_length, Es in Hf. cbn [List.length] in Hf. lia.
    + rewrite E. exists p'. rewrite <- !app_assoc. do 2 f_equal. f_equal.
      cbn. destruct (is_att_type ty); reflexivity.
Qed.

Definition start_token : token := Tok START 0 TNone.

Theorem lex_text_iff text toks :
  lex_text U text = Ok toks <-> exists ts, toks = start_token :: ts /\ tiles U 0 text ts.
Proof.
  unfold lex_text, tokenize. split.
  - intros H. apply bind_ok in H as (l & H & [= <-]).
    apply tokenize_loop_sound in H as (ts & -> & Ht & _); [|discriminate].
    exists ts. split; [reflexivity|exact Ht].
  - intros (ts & -> & Ht).
    edestruct (tokenize_loop_complete _ _ _ Ht (List.length text + 2) [start_token] []) as (p' & E);
      [discriminate|lia|].
    unfold lexer_init. cbn [lx_rest]. fold start_token. rewrite E. reflexivity.
Qed.

Theorem tokenize_atts text l :
  tokenize U (lexer_init text) = Ok l ->
  lx_atts l = filter (fun t => is_att_type (t_type t)) (lx_toks l).
Proof.
  unfold tokenize. intros H.
  apply tokenize_loop_sound in H as (ts & -> & _ & ->); [|discriminate]. reflexivity.
Qed.

(** ** Shape, positions *)

Inductive increasing : Z -> list token -> Prop :=
| inc_nil b : increasing b []
| inc_cons b t ts : b <= t_pos t -> increasing (t_pos t + 1) ts -> increasing b (t :: ts).

Lemma tiles_shape p text ts :
  tiles U p text ts ->
  exists body, ts = body ++ [Tok END (p + len text) TNone] /\
    Forall (fun t => t_type t <> START /\ t_type t <> END) body.
Proof.
  induction 1 as [p ws Hw|p ws s rest ty v ts Hw Hl Ht (body & -> & Hb)].
  - exists []. auto.
  - exists (Tok ty (p + len ws) v :: body). split.
    + cbn. do 3 f_equal. rewrite !len_app. f_equal. lia.
    + constructor; auto. apply lexeme_type in Hl. cbn. tauto.
Qed.

Lemma increasing_weaken b b' ts : b' <= b -> increasing b ts -> increasing b' ts.
Proof. intros H; destruct 1; constructor; auto; lia. Qed.

Lemma tiles_increasing p text ts : tiles U p text ts -> increasing p ts.
Proof.
  induction 1 as [p ws Hw|p ws s rest ty v ts Hw Hl Ht IH].
  - constructor; [cbn; pose proof (len_nonneg ws); lia|constructor].
  - constructor; [cbn; pose proof (len_nonneg ws); lia|].
    eapply increasing_weaken; [|exact IH]. cbn.
    destruct (lexeme_start U uok _ _ _ _ Hl) as (c & s' & -> & _).
    rewrite len_cons. pose proof (len_nonneg s'). lia.
Qed.

(** ** Errors *)

Lemma num_loop_err isf pos rest e :
  num_loop U isf pos rest = Err e ->
  exists p, e = ELexer p /\ pos <= p <= pos + len rest.
Proof.
  revert isf pos; induction rest as [|c rest IH]; intros isf pos; cbn [num_loop]; [discriminate|].
  rewrite len_cons. pose proof (len_nonneg rest).
  destruct (isdigit U c).
  - destruct (num_loop U isf (pos + 1) rest) as [[[[]]]|] eqn:E; [discriminate|].
    intros [= <-]. apply IH in E as (p & -> & ?). exists p; split; auto; lia.
  - destruct (c =? 46)%N; [|discriminate]. destruct isf.
    { intros [= <-]. eexists; split; [reflexivity|lia]. }
    destruct rest as [|d rest]. { intros [= <-]. eexists; split; [reflexivity|lia]. }
    destruct (isdigit U d). 2:{ intros [= <-]. eexists; split; [reflexivity|lia]. }
    destruct (num_loop U true (pos + 1) (d :: rest)) as [[[[]]]|] eqn:E; [discriminate|].
    intros [= <-]. apply IH in E as (p & -> & ?). exists p; split; auto; lia.
Qed.

Lemma digits_val_none acc cs :
  Forall (digit U) cs -> digits_val U acc cs = None ->
  exists x, In x cs /\ asc x = false /\ isdigit U x = true.
Proof.
  intros Hf; revert acc; induction Hf as [|c cs Hc Hf IH]; intros acc; cbn [digits_val]; [discriminate|].
  destruct (digit_val U c) eqn:E.
  - intros H. apply IH in H as (x & ? & ?). exists x. cbn; auto.
  - intros _. exists c. cbn. repeat split; auto.
    unfold digit in Hc. unfold isdigit in Hc. unfold digit_val in E. destruct (asc c); auto.
    destruct ((48 <=? c)%N && (c <=? 57)%N); congruence.
Qed.

Lemma split_dot_digits ds a b :
  split_dot ds = (a, b) -> Forall (fun c => isdigit U c = true \/ c = 46%N) ds ->
  (forall es fs, ds = es ++ 46%N :: fs -> Forall (digit U) es -> Forall (digit U) fs ->
    Forall (digit U) (a ++ b)).
Proof.
  intros Hs _ es fs -> He Hf. rewrite split_dot_run with (U := U) in Hs by auto.
  injection Hs as <- <-. apply Forall_app; auto.
Qed.

Lemma lex_number_err pos c rest e :
  isdigit U c = true \/ (c = 45%N /\ exists d rest', rest = d :: rest' /\ isdigit U d = true) ->
  lex_number U pos c rest = Err e ->
  (exists p, e = ELexer p /\ pos <= p <= pos + 1 + len rest) \/
  (e = EValue /\ exists x, In x (c :: rest) /\ asc x = false /\ isdigit U x = true).
Proof.
  intros Hc. unfold lex_number.
  destruct (num_loop U false (pos + 1) rest) as [[[[f cs] p] r]|e'] eqn:El.
  2:{ cbn. intros [= <-]. apply num_loop_err in El as (p & -> & ?). left. exists p; split; auto; lia. }
  apply num_loop_false in El as (-> & -> & Hn & Hcase). cbn [bind].
  destruct Hcase as [[-> Hf] | (-> & es & fs & -> & He & Hfs & Hnf)].
  - unfold py_int. destruct (strip_sign (c :: cs)) as [neg ds] eqn:Es.
    destruct (digits_val U 0 ds) eqn:Ev; cbn; [discriminate|]. intros [= <-]. right. split; auto.
    assert (Hds : Forall (digit U) ds /\ incl ds (c :: cs)).
    { cbn in Es. destruct (N.eqb_spec c 45) as [->|Hm]; injection Es as <- <-.
      - split; auto. apply incl_tl, incl_refl.
      - split; [|apply incl_refl]. constructor; auto. destruct Hc as [?|[? _]]; [auto|congruence]. }
    destruct Hds as [Hd Hi]. apply digits_val_none in Ev as (x & Hx & ?); auto.
    exists x. split; auto. apply Hi in Hx. cbn in *. rewrite in_app_iff. tauto.
  - unfold py_float. destruct (strip_sign (c :: es ++ 46%N :: fs)) as [neg ds] eqn:Es.
    assert (Hds : exists ds', ds = ds' ++ 46%N :: fs /\ Forall (digit U) ds' /\ incl ds' (c :: es)).
    { cbn in Es. destruct (N.eqb_spec c 45) as [->|Hm]; injection Es as <- <-.
      - exists es. repeat split; auto. apply incl_tl, incl_refl.
      - exists (c :: es). repeat split; [|apply incl_refl]. constructor; auto.
        destruct Hc as [?|[? _]]; [auto|congruence]. }
    destruct Hds as (ds' & -> & Hd & Hi). rewrite split_dot_run with (U := U) by auto.
    destruct (digits_val U 0 (ds' ++ fs)) eqn:Ev; cbn; [discriminate|]. intros [= <-]. right. split; auto.
    apply digits_val_none in Ev as (x & Hx & ?); [|apply Forall_app; auto].
    exists x. split; auto. apply in_app_iff in Hx as [Hx|Hx].
    + apply Hi in Hx. cbn in *. rewrite !in_app_iff. tauto.
    + cbn. rewrite !in_app_iff. cbn. tauto.
Qed.

Lemma string_loop_err start pos rest e :
  string_loop start pos rest = Err e -> start <= pos ->
  exists p, e = ELexer p /\ start <= p <= pos + len rest.
Proof.
  revert pos; induction rest as [|c rest IH]; intros pos; cbn [string_loop].
  - intros [= <-] ?. exists start. rewrite len_nil. split; auto; lia.
  - rewrite len_cons. pose proof (len_nonneg rest). destruct (c =? 34)%N; [discriminate|].
    destruct (string_char c).
    + destruct (string_loop start (pos + 1) rest) as [[[]]|] eqn:E; [discriminate|].
      intros [= <-] Hs. apply IH in E as (p & -> & ?); [|lia]. exists p; split; auto; lia.
    + intros [= <-] ?. exists pos. split; auto; lia.
Qed.

(** A word followed by a '.' that ends the text. *)
Definition ends_in_dot (text : str) : Prop :=
  exists pre c w, text = pre ++ (c :: w) ++ [46%N] /\ letter U c /\ Forall (id_char U) w.

Definition lex_error (pos : Z) (text : str) (e : exc) : Prop :=
  (exists p, e = ELexer p /\ pos <= p <= pos + len text) \/
  (e = EAttribute /\ ends_in_dot text) \/
  (e = EValue /\ exists x, In x text /\ asc x = false /\ isdigit U x = true).

Lemma lex_word_err pos c rest e :
  isalpha U c = true -> lex_word U pos c rest = Err e -> lex_error pos (c :: rest) e.
Proof.
  intros Hc. unfold lex_word.
  destruct (span_id U (pos + 1) rest) as [[s p1] r1] eqn:Es.
  apply span_id_ok in Es as (-> & -> & Hf & Hn). cbv zeta.
  pose proof (len_nonneg s). pose proof (len_nonneg r1).
  destruct (match r1 with d :: _ => (d =? 46)%N | [] => false end) eqn:Ed.
  - destruct r1 as [|d0 r1]; [discriminate|]. apply N.eqb_eq in Ed as ->.
    cbn [tl]. destruct r1 as [|d r2].
    { intros [= <-]. right; left. split; auto. exists [], c, s. auto. }
    rewrite idchar_charb. destruct (id_charb U d) eqn:Eid.
    + destruct (span_id U _ r2) as [[s2 p2] r3] eqn:Es.
      destruct (att_prefix _); [discriminate|]. intros [= <-]. left. exists pos.
      rewrite len_cons. split; auto. rewrite len_app. lia.
    + intros [= <-]. left. eexists; split; [reflexivity|].
      rewrite len_cons, len_app, !len_cons. pose proof (len_nonneg r2). lia.
  - assert (E1 : forall e0 : exc, ELexer pos = e0 -> lex_error pos (c :: s ++ r1) e0).
    { intros e0 <-. left. exists pos. split; auto. rewrite len_cons, len_app. lia. }
    repeat match goal with
    | |- (if ?a then _ else _) = _ -> _ => destruct a
    end; try discriminate.
    intros [= <-]. apply E1. reflexivity.
Qed.

Lemma lex_char_err pos c rest e :
  lex_char U pos c rest = Err e -> lex_error pos (c :: rest) e.
Proof.
  assert (E1 : forall p, pos <= p <= pos + len (c :: rest) -> lex_error pos (c :: rest) (ELexer p)).
  { intros p Hp. left. exists p. auto. }
  rewrite len_cons in E1. pose proof (len_nonneg rest).
  unfold lex_char.
  repeat match goal with
    | |- (if (c =? ?k)%N then Ok _ else _) = _ -> _ => destruct (c =? k)%N; [discriminate|]
    end.
  destruct (c =? 62)%N. { destruct (head_is 61 rest); discriminate. }
  destruct (c =? 60)%N. { destruct (head_is 61 rest); discriminate. }
  destruct (c =? 33)%N. { destruct (head_is 61 rest); [discriminate|]. intros [= <-]. apply E1. lia. }
  destruct (c =? 34)%N.
  { destruct (string_loop pos (pos + 1) rest) as [[[]]|] eqn:Es; [discriminate|].
    intros [= <-]. apply string_loop_err in Es as (p & -> & ?); [|lia]. apply E1. lia. }
  destruct (isdigit U c || _) eqn:En.
  { intros Hn. apply lex_number_err in Hn.
    - destruct Hn as [(p & -> & ?)|Hn]; [apply E1; lia|right; right; auto].
    - apply orb_true_iff in En as [En|En]; [now left|right].
      apply andb_true_iff in En as [Ec Ed]. apply N.eqb_eq in Ec as ->. split; auto.
      destruct rest as [|d rest]; [discriminate|]. eauto. }
  destruct (isalpha U c) eqn:Ea.
  - now apply lex_word_err.
  - intros [= <-]. apply E1. lia.
Qed.

Lemma lex_error_prefix pos pre rest e :
  lex_error (pos + len pre) rest e -> lex_error pos (pre ++ rest) e.
Proof.
  intros [(p & -> & Hp)|[(-> & (a & c & w & -> & Hc & Hw))|(-> & x & Hx & ?)]].
  - left. exists p. rewrite len_app. pose proof (len_nonneg pre). split; auto. lia.
  - right; left. split; auto. exists (pre ++ a), c, w. now rewrite <- app_assoc.
  - right; right. split; auto. exists x. rewrite in_app_iff. auto.
Qed.

Lemma lex_next_err l e :
  lex_next U l = Err e -> lex_error (lx_pos l) (lx_rest l) e.
Proof.
  unfold lex_next. destruct (skip_ws U (lx_pos l) (lx_rest l)) as [p r] eqn:Es.
  apply skip_ws_ok in Es as (ws & -> & Hf & -> & Hn).
  destruct r as [|c r].
  - destruct (last_type (lx_toks l)) as [[]|]; discriminate.
  - destruct (lex_char U (lx_pos l + len ws) c r) as [[[]]|] eqn:E; [discriminate|].
    intros [= <-]. apply lex_char_err in E. now apply lex_error_prefix.
Qed.

Lemma tokenize_loop_err fuel l e :
  tokenize_loop U fuel l = Err e -> (List.length (lx_rest l) + 2 <= fuel)%nat ->
  lex_error (lx_pos l) (lx_rest l) e.
Proof.
  revert l; induction fuel as [|fuel IH]; intros l; cbn [tokenize_loop]; [lia|].
  destruct (lex_next U l) as [[ot l1]|e1] eqn:E1; cbn [bind].
  2:{ intros [= <-] _. now apply lex_next_err. }
  apply lex_next_cases in E1.
  destruct E1 as [(-> & _ & Hl & _)|[(t & -> & Et & Hw & _ & ->)|(t & ws & s & -> & Er & Hne & Hw & Hp & Hl & Hp' & Ht & Ha)]].
  - discriminate.
  - intros H Hf. destruct fuel; [lia|]. cbn [tokenize_loop] in H.
    rewrite lex_next_none in H by (rewrite last_type_snoc; now subst t). discriminate.
  - intros H Hf. apply IH in H.
    + rewrite Er, app_assoc. apply lex_error_prefix. rewrite len_app, Z.add_assoc, <- Hp'. exact H.
    + rewrite Er, !app_length in Hf. destruct s; [congruence|]. cbn [List.length] in Hf. lia.
Qed.

Theorem lex_text_err text e : lex_text U text = Err e -> lex_error 0 text e.
Proof.
  unfold lex_text, tokenize. intros H.
  destruct (tokenize_loop U _ (lexer_init text)) eqn:E; [discriminate|].
  injection H as <-. apply tokenize_loop_err in E; auto.
Qed.

(** ** Incremental lexing *)

Fixpoint nexts (k : nat) (l : lexer) : res lexer :=
  match k with O => Ok l | S k' => '(_, l') <- lex_next U l ;; nexts k' l' end.

Lemma tokenize_loop_fuel f1 f2 l :
  (List.length (lx_rest l) + 2 <= f1)%nat -> (List.length (lx_rest l) + 2 <= f2)%nat ->
  tokenize_loop U f1 l = tokenize_loop U f2 l.
Proof.
  revert f2 l; induction f1 as [|f1 IH]; intros f2 l H1 H2; [lia|].
  destruct f2 as [|f2]; [lia|]. cbn [tokenize_loop].
  destruct (lex_next U l) as [[ot l1]|] eqn:E1; cbn [bind]; auto.
  apply lex_next_cases in E1.
  destruct E1 as [(-> & _ & Hl & _)|[(t & -> & Et & Hw & _ & ->)|(t & ws & s & -> & Er & Hne & Hw & Hp & Hl & Hp' & Ht & Ha)]]; auto.
  - destruct f1, f2; try lia. cbn [tokenize_loop].
    rewrite lex_next_none by (rewrite last_type_snoc; now subst t). reflexivity.
  - apply IH; rewrite Er, !app_length in *; destruct s; try congruence; cbn [List.length] in *; lia.
Qed.

Lemma tokenize_step l t l' :
  lex_next U l = Ok (Some t, l') -> tokenize U l' = tokenize U l.
Proof.
  intros H. unfold tokenize at 2.
  replace (List.length (lx_rest l) + 2)%nat with (S (List.length (lx_rest l) + 1)) by lia.
  cbn [tokenize_loop]. rewrite H. cbn [bind].
  apply lex_next_cases in H.
  destruct H as [(? & _)|[(t' & E & Et & Hw & _ & ->)|(t' & ws & s & E & Er & Hne & Hw & Hp & Hl & Hp' & Ht & Ha)]]; [discriminate|..].
  - unfold tokenize. cbn [lx_rest List.length Nat.add].
    replace (List.length (lx_rest l) + 1)%nat with (S (List.length (lx_rest l))) by lia.
    cbn [tokenize_loop]. rewrite lex_next_none by (rewrite last_type_snoc; now subst t'). reflexivity.
  - unfold tokenize. apply tokenize_loop_fuel; try lia.
    rewrite Er, !app_length. destruct s; [congruence|]. cbn [List.length]. lia.
Qed.

(** Reachable lexers: once END is in the list no text is left. *)
Definition lx_inv (l : lexer) : Prop :=
  last_type (lx_toks l) = Some END -> lx_rest l = [].

Lemma lex_next_inv l ot l' : lx_inv l -> lex_next U l = Ok (ot, l') -> lx_inv l'.
Proof.
  intros Hi H. apply lex_next_cases in H.
  destruct H as [(-> & _ & Hl & E & _)|[(t' & E & Et & Hw & _ & ->)|(t' & ws & s & E & Er & Hne & Hw & Hp & Hl & Hp' & Ht & Ha)]];
  unfold lx_inv; auto.
  rewrite Ht, last_type_snoc. apply lexeme_type in Hl. intros [= ?]. tauto.
Qed.

Theorem nexts_tokenize k text l :
  nexts k (lexer_init text) = Ok l -> tokenize U l = tokenize U (lexer_init text).
Proof.
  assert (G : forall k l0 l1, lx_inv l0 -> nexts k l0 = Ok l1 -> tokenize U l1 = tokenize U l0).
  { clear k text l. intros k; induction k as [|k IH]; intros l0 l1 Hi; cbn [nexts].
    - intros [= <-]. auto.
    - intros H. apply bind_ok in H as ([ot l2] & H2 & H).
      rewrite (IH _ _ (lex_next_inv _ _ _ Hi H2) H).
      destruct ot as [t|]; [now apply tokenize_step in H2|].
      assert (l2 = l0) as ->; auto.
      pose proof H2 as H3. apply lex_next_cases in H3.
      destruct H3 as [(_ & _ & Hl & _)|[(? & ? & _)|(? & ? & ? & ? & _)]]; try discriminate.
      pose proof (Hi Hl) as Er. destruct l0 as [p r ts at0]. cbn in *. subst r.
      rewrite lex_next_none in H2 by auto. now injection H2 as <-. }
  apply G. intros H; discriminate.
Qed.

Theorem tokenize_again text l :
  tokenize U (lexer_init text) = Ok l ->
  lex_next U l = Ok (None, l) /\ tokenize U l = Ok l.
Proof.
  intros H.
  assert (Hn : last_type (lx_toks l) = Some END /\ lx_rest l = []).
  { unfold tokenize in H. revert H. generalize (List.length (lx_rest (lexer_init text)) + 2)%nat.
    assert (Hi : lx_inv (lexer_init text)) by (intros E; discriminate).
    revert Hi. generalize (lexer_init text). intros l0 Hi n. revert l0 Hi.
    induction n as [|n IH]; intros l0 Hi; cbn [tokenize_loop]; [discriminate|].
    intros H. apply bind_ok in H as ([ot l2] & H2 & H).
    destruct ot. { apply lex_next_inv in H2 as Hi2; auto. now apply IH in H. }
    injection H as <-. apply lex_next_cases in H2.
    destruct H2 as [(_ & _ & Hl & E & Et & _)|[(? & ? & _)|(? & ? & ? & ? & _)]]; try discriminate.
    now rewrite Et. }
  destruct Hn as [Hl Hr]. destruct l as [p r ts at0]. cbn in *. subst r.
  split; [now apply lex_next_none|]. unfold tokenize. cbn [lx_rest List.length Nat.add tokenize_loop].
  rewrite lex_next_none by auto. reflexivity.
Qed.

(** ** Whitespace *)

Lemma lexeme_ws s rest rest' ty v :
  lexeme U s rest ty v ->
  (rest' = [] \/ exists c r, rest' = c :: r /\ isspace U c = true) ->
  lexeme U s rest' ty v.
Proof.
  intros Hl Hr.
  assert (N1 : forall P, (forall c, isspace U c = true -> P c = false) -> not_starts P rest').
  { intros P HP. destruct Hr as [->|(c & r & -> & Hc)]; cbn; auto. }
  assert (A61 : not_starts (N.eqb 61) rest').
  { apply N1. intros c Hc. apply N.eqb_neq. intros <-. discriminate. }
  assert (Adot : forall c, isspace U c = true -> (c =? 46)%N = false).
  { intros c Hc. apply N.eqb_neq. intros ->. discriminate. }
  assert (Aid : forall c, isspace U c = true -> id_charb U c = false).
  { intros c Hc. unfold id_charb. rewrite (space_alpha U uok), (space_digit U uok) by auto.
    apply N.eqb_neq. intros ->. discriminate. }
  destruct Hl.
  - now apply lx_symbol.
  - now apply lx_gt.
  - now apply lx_lt.
  - eapply lx_string; eauto.
  - eapply lx_int; eauto. apply N1. intros c Hc. unfold dot_or_digit.
    now rewrite (space_digit U uok), Adot.
  - eapply lx_float; eauto. apply N1. intros c Hc. unfold dot_or_digit.
    now rewrite (space_digit U uok), Adot.
  - eapply lx_keyword; eauto. apply N1. intros c0 Hc. unfold dot_or_id. now rewrite Aid, Adot.
  - eapply lx_attribute; eauto.
Qed.

(** Text made of lexemes, each preceded by some white space. *)
Fixpoint layout (items : list (str * str)) (last : str) : str :=
  match items with [] => last | (w, s) :: r => w ++ s ++ layout r last end.

(** [separated w1 w2]: blanks of the second layout are non-empty wherever those
    of the first are; blanks before the first lexeme are arbitrary. *)
Definition blank (w : str) : Prop := Forall (space U) w.

Definition tv (t : token) := (t_type t, t_val t).

Definition lexemes_of (items : list (str * str)) : list str := map snd items.

(** Two layouts of the same lexemes; a gap that separates in the first also
    separates in the second. *)
Inductive relayout : list (str * str) -> list (str * str) -> Prop :=
| rl_nil : relayout [] []
| rl_cons w w' s it it' : blank w -> blank w' -> (w <> [] -> w' <> []) ->
                          relayout it it' -> relayout ((w, s) :: it) ((w', s) :: it').

Lemma relayout_head it it' last last' s ty v :
  relayout it it' -> blank last' ->
  lexeme U s (layout it last) ty v ->
  (match it with (w, t) :: _ => t <> [] | [] => True end) ->
  lexeme U s (layout it' last') ty v.
Proof.
  intros Hr Hl Hx Hne. destruct Hr as [|w w' t it it' Hw Hw' Hs Hr].
  - cbn [layout] in *. eapply lexeme_ws; eauto. destruct last' as [|c r]; auto.
    right. inversion Hl; subst. eauto.
  - cbn [layout] in *. destruct w' as [|c' w'].
    + assert (w = []) as -> by (destruct w; [auto|exfalso; apply Hs; auto; discriminate]).
      cbn [app] in *. destruct t as [|c t]; [congruence|]. cbn [app] in *.
      (* same first character: all conditions only look at it *)
      destruct Hx; [now apply lx_symbol|now apply lx_gt|now apply lx_lt|eapply lx_string; eauto|
                    eapply lx_int; eauto|eapply lx_float; eauto|eapply lx_keyword; eauto|eapply lx_attribute; eauto].
    + eapply lexeme_ws; eauto. right. inversion Hw'; subst. cbn. eauto.
Qed.

Inductive segmented : list (str * str) -> str -> list (ttype * tokval) -> Prop :=
| sg_nil last : blank last -> segmented [] last []
| sg_cons w s it last ty v tvs :
    blank w -> lexeme U s (layout it last) ty v -> segmented it last tvs ->
    segmented ((w, s) :: it) last ((ty, v) :: tvs).

Lemma tiles_segmented p text ts :
  tiles U p text ts ->
  exists it last tvs, text = layout it last /\ segmented it last tvs /\
    map tv ts = tvs ++ [(END, TNone)].
Proof.
  induction 1 as [p ws Hw|p ws s rest ty v ts Hw Hl Ht (it & last & tvs & -> & Hs & Hm)].
  - exists [], ws, []. repeat split; auto. now constructor.
  - exists ((ws, s) :: it), last, ((ty, v) :: tvs). repeat split; auto.
    + constructor; auto.
    + cbn. now rewrite Hm.
Qed.

Lemma segmented_tiles it last tvs :
  segmented it last tvs -> forall p,
  exists ts, tiles U p (layout it last) ts /\ map tv ts = tvs ++ [(END, TNone)].
Proof.
  induction 1 as [last Hb|w s it last ty v tvs Hw Hl Hs IH]; intros p.
  - eexists. split; [apply tiles_end; auto|]. reflexivity.
  - destruct (IH (p + len w + len s)) as (ts & Ht & Hm).
    eexists. split; [apply tiles_cons; eauto|]. cbn. now rewrite Hm.
Qed.

Lemma segmented_relayout it last tvs :
  segmented it last tvs -> forall it' last', relayout it it' -> blank last' ->
  segmented it' last' tvs.
Proof.
  induction 1 as [last Hb|w s it last ty v tvs Hw Hl Hs IH]; intros it' last' Hr Hb'.
  - inversion Hr; subst. now constructor.
  - inversion Hr; subst. constructor; auto.
    eapply relayout_head; eauto.
    destruct Hs as [|? ? ? ? ? ? ? ? Hl2]; auto.
    apply lexeme_start in Hl2 as (? & ? & -> & _); auto. discriminate.
Qed.

Definition tok_tvs (toks : list token) : list (ttype * tokval) := map tv toks.

Theorem lex_relayout text toks :
  lex_text U text = Ok toks ->
  exists it last, text = layout it last /\
    (List.length it + 2 = List.length toks)%nat /\
    (forall k w s, nth_error it k = Some (w, s) ->
       exists t rest, nth_error toks (S k) = Some t /\ lexeme U s rest (t_type t) (t_val t)) /\
    forall it' last', relayout it it' -> blank last' ->
    exists toks', lex_text U (layout it' last') = Ok toks' /\
                  map (fun t => (t_type t, t_val t)) toks' = map (fun t => (t_type t, t_val t)) toks.
Proof.
  intros H. apply lex_text_iff in H as (ts & -> & Ht).
  apply tiles_segmented in Ht as (it & last & tvs & -> & Hs & Hm).
  assert (Hlen : List.length tvs = List.length it) by (clear Hm; induction Hs; cbn; auto).
  exists it, last. split; auto. split; [|split].
  - apply (f_equal (@List.length _)) in Hm. rewrite app_length, map_length in Hm. cbn in *. lia.
  - intros k w s Hk. cbn [nth_error].
    assert (G : exists ty v rest, nth_error tvs k = Some (ty, v) /\ lexeme U s rest ty v).
    { clear Hm. revert k Hk. induction Hs; intros k Hk; [destruct k; discriminate|].
      destruct k as [|k]; cbn in Hk.
      - injection Hk as -> ->. repeat eexists; eauto.
      - apply IHHs in Hk; auto. }
    destruct G as (ty & v & rest & Hn & Hl).
    assert (Hn' : nth_error (map tv ts) k = Some (ty, v)).
    { rewrite Hm, nth_error_app1; auto. apply nth_error_Some. congruence. }
    rewrite nth_error_map in Hn'. destruct (nth_error ts k) as [t|]; [|discriminate].
    cbn in Hn'. injection Hn' as <- <-. eauto.
  - intros it' last' Hr Hb.
    pose proof (segmented_relayout _ _ _ Hs _ _ Hr Hb) as Hs'.
    destruct (segmented_tiles _ _ _ Hs' 0) as (ts' & Ht' & Hm').
    exists (start_token :: ts'). split.
    + apply lex_text_iff. eauto.
    + cbn. f_equal. change (map tv ts' = map tv ts). congruence.
Qed.

(** Lexemes separated by any non-empty white space are read back. *)
Theorem lex_separated (items : list (str * str)) (last : str) (tvs : list (ttype * tokval)) :
  Forall2 (fun it tv => blank (fst it) /\ lexeme U (snd it) [] (fst tv) (snd tv)) items tvs ->
  Forall (fun it => fst it <> []) (tl items) -> blank last ->
  exists toks, lex_text U (layout items last) = Ok toks /\
    map (fun t => (t_type t, t_val t)) toks = (START, TNone) :: tvs ++ [(END, TNone)].
Proof.
  intros H Hs Hl.
  assert (Hseg : segmented items last tvs).
  { revert Hs. induction H as [|[w s] [ty v] items tvs [Hw Hx] H IH]; intros Hs; [now constructor|].
    cbn in Hw, Hx, Hs. constructor; auto.
    - eapply lexeme_ws; [exact Hx|]. destruct items as [|[w2 s2] items]; cbn.
      + destruct last as [|c r]; auto. right. inversion Hl; subst. eauto.
      + inversion Hs; subst. cbn in *. right. destruct w2 as [|c w2]; [congruence|].
        inversion H as [|x y l l' [Hb _] Hrest]; subst. cbn in Hb. inversion Hb; subst. cbn. eauto.
    - apply IH. destruct items; cbn in *; auto. now inversion Hs. }
  destruct (segmented_tiles _ _ _ Hseg 0) as (ts & Ht & Hm).
  exists (start_token :: ts). split.
  - apply lex_text_iff; eauto.
  - cbn. f_equal. exact Hm.
Qed.

End WithUnicode.
