(** * LexCase: changing the case of letters in a policy *)

From Coq Require Import NArith ZArith List Bool String Lia.
From Verif Require Import PyBase PyNum Lexer LexSpec LexProofs LexProofs2.
Import ListNotations.
Open Scope Z_scope.

(** Characters equal up to ASCII case. *)
Definition cc (x y : N) : Prop :=
  x = y \/ ((up x = true \/ low x = true) /\ (up y = true \/ low y = true) /\ lower_c x = lower_c y).

Lemma cc_lower x y : lower_c x = lower_c y -> cc x y.
Proof.
  intros H. unfold cc. destruct (N.eq_dec x y) as [|Hne]; [auto|right].
  unfold lower_c, up, low in *.
  destruct (N.leb_spec 65 x), (N.leb_spec x 90), (N.leb_spec 65 y), (N.leb_spec y 90); cbn in *; try lia;
  repeat split; auto; right; apply andb_true_iff; split; apply N.leb_le; lia.
Qed.

Lemma cc_letter_range x : up x = true \/ low x = true -> (65 <= x <= 90 \/ 97 <= x <= 122)%N.
Proof.
  unfold up, low. intros [H|H]; apply andb_true_iff in H as [H1 H2];
  apply N.leb_le in H1, H2; lia.
Qed.

Lemma cc_eqb x y k : cc x y -> (k < 65 \/ 90 < k < 97 \/ 122 < k)%N -> (x =? k)%N = (y =? k)%N.
Proof.
  intros [->|(Hx & Hy & _)] Hk; auto. apply cc_letter_range in Hx, Hy.
  destruct (N.eqb_spec x k), (N.eqb_spec y k); auto; lia.
Qed.

Section WithUnicode.
Variable U : unicode.

Lemma cc_letter_class x : up x = true \/ low x = true ->
  isspace U x = false /\ isdigit U x = false /\ isalpha U x = true /\ string_char x = true.
Proof.
  intros H. pose proof (cc_letter_range _ H) as Hr.
  assert (Ha : asc x = true) by (apply N.ltb_lt; lia).
  unfold isspace, isdigit, isalpha, string_char. rewrite Ha.
  repeat split.
  - destruct (N.leb_spec 9 x), (N.leb_spec x 13), (N.leb_spec 28 x), (N.leb_spec x 32); auto; lia.
  - destruct (N.leb_spec 48 x), (N.leb_spec x 57); auto; lia.
  - apply orb_true_iff; auto.
  - destruct (N.leb_spec 35 x), (N.leb_spec x 126); auto; lia.
Qed.

Lemma cc_space x y : cc x y -> isspace U x = isspace U y.
Proof. intros [->|(Hx & Hy & _)]; auto. apply cc_letter_class in Hx, Hy. destruct Hx, Hy; congruence. Qed.
Lemma cc_digit x y : cc x y -> isdigit U x = isdigit U y.
Proof. intros [->|(Hx & Hy & _)]; auto. apply cc_letter_class in Hx, Hy. intuition congruence. Qed.
Lemma cc_alpha x y : cc x y -> isalpha U x = isalpha U y.
Proof. intros [->|(Hx & Hy & _)]; auto. apply cc_letter_class in Hx, Hy. intuition congruence. Qed.
Lemma cc_string x y : cc x y -> string_char x = string_char y.
Proof. intros [->|(Hx & Hy & _)]; auto. apply cc_letter_class in Hx, Hy. intuition congruence. Qed.
Lemma cc_digit_eq x y : cc x y -> isdigit U x = true -> x = y.
Proof. intros [->|(Hx & Hy & _)]; auto. apply cc_letter_class in Hx. intuition congruence. Qed.
Lemma cc_id x y : cc x y -> idchar U x = idchar U y.
Proof.
  intros H. unfold idchar. rewrite (cc_alpha _ _ H), (cc_digit _ _ H), (cc_eqb _ _ 95 H) by lia. auto.
Qed.

Definition rc : str -> str -> Prop := Forall2 cc.

Lemma rc_recased a b : recased a b -> rc a b.
Proof.
  unfold recased. revert b; induction a as [|x a IH]; intros [|y b]; cbn; try discriminate; constructor.
  - injection H as H _. now apply cc_lower.
  - injection H as _ H. now apply IH.
Qed.

Lemma cc_recase x y : cc x y -> lower_c x = lower_c y.
Proof. intros [->|(_ & _ & ?)]; auto. Qed.

Lemma recased_rc a b : rc a b -> recased a b.
Proof. unfold recased. induction 1 as [|x y a b H]; cbn; f_equal; auto using cc_recase. Qed.

Lemma cc_asc x y : cc x y -> asc x = asc y.
Proof.
  intros [->|(Hx & Hy & _)]; auto. apply cc_letter_range in Hx, Hy.
  unfold asc. destruct (N.ltb_spec x 128), (N.ltb_spec y 128); auto; lia.
Qed.

Lemma rc_ascii a b : rc a b -> is_ascii a = is_ascii b.
Proof. induction 1 as [|x y a b H]; cbn; auto. rewrite (cc_asc _ _ H). f_equal; auto. Qed.

Lemma rc_lower a b : is_ascii a = true -> rc a b -> py_lower U a = py_lower U b.
Proof.
  intros Ha H. unfold py_lower. rewrite <- (rc_ascii _ _ H), Ha. now apply recased_rc in H.
Qed.

Lemma rc_upper a b : is_ascii a = true -> rc a b -> py_upper U a = py_upper U b.
Proof.
  intros Ha H. unfold py_upper. rewrite <- (rc_ascii _ _ H), Ha.
  rewrite (map_upper_lower a), (map_upper_lower b); auto.
  - f_equal. now apply recased_rc in H.
  - now rewrite <- (rc_ascii _ _ H).
Qed.

Definition rel_res {A} (R : A -> A -> Prop) (x y : res A) : Prop :=
  match x, y with Ok a, Ok b => R a b | Err e, Err e' => e = e' | _, _ => False end.

Lemma rel_bind {A B} (R : A -> A -> Prop) (S : B -> B -> Prop) x y f g :
  rel_res R x y -> (forall a b, R a b -> rel_res S (f a) (g b)) ->
  rel_res S (bind x f) (bind y g).
Proof. destruct x, y; cbn; intros H HS; auto; contradiction. Qed.

Lemma skip_ws_rc a b p :
  rc a b -> is_ascii a = true ->
  let '(p1, r1) := skip_ws U p a in let '(p2, r2) := skip_ws U p b in
  p1 = p2 /\ rc r1 r2 /\ is_ascii r1 = true.
Proof.
  intros H; revert p; induction H as [|x y a b Hc H IH]; intros p Ha; cbn [skip_ws].
  - repeat split; auto. constructor.
  - rewrite <- (cc_space _ _ Hc). cbn in Ha. apply andb_true_iff in Ha as [Hx Ha].
    destruct (isspace U x).
    + now apply IH.
    + repeat split; [constructor; auto|]. cbn. now rewrite Hx.
Qed.

Lemma num_loop_rc isf p a b :
  rc a b -> is_ascii a = true ->
  rel_res (fun x y => let '(f1, c1, p1, r1) := x in let '(f2, c2, p2, r2) := y in
             f1 = f2 /\ c1 = c2 /\ p1 = p2 /\ rc r1 r2 /\ is_ascii r1 = true)
          (num_loop U isf p a) (num_loop U isf p b).
Proof.
  intros H; revert isf p; induction H as [|x y a b Hc H IH]; intros isf p Ha; cbn [num_loop].
  - cbn. repeat split; auto. constructor.
  - rewrite <- (cc_digit _ _ Hc), <- (cc_eqb _ _ 46 Hc) by lia.
    pose proof Ha as Ha'. cbn in Ha. apply andb_true_iff in Ha as [Hx Ha].
    destruct (isdigit U x) eqn:Ed.
    + eapply rel_bind; [apply IH; auto|].
      intros [[[f1 c1] p1] r1] [[[f2 c2] p2] r2] (-> & -> & -> & ? & ?). cbn.
      rewrite (cc_digit_eq _ _ Hc Ed). auto.
    + destruct (N.eqb_spec x 46) as [->|Hn].
      * destruct isf; [reflexivity|].
        assert (y = 46%N) as ->.
        { destruct Hc as [<-|(Hl & _)]; auto. apply cc_letter_range in Hl. lia. }
        destruct H as [|d e a b Hd H]; [reflexivity|].
        rewrite <- (cc_digit _ _ Hd). destruct (isdigit U d); [|reflexivity].
        eapply rel_bind; [apply IH; auto|].
        intros [[[f1 c1] p1] r1] [[[f2 c2] p2] r2] (-> & -> & -> & ? & ?). cbn. auto.
      * cbn. repeat split; auto. constructor; auto.
Qed.

(** Tokens equal up to the case of attribute names and string contents. *)
Definition tok_rc (t1 t2 : token) : Prop :=
  t_type t1 = t_type t2 /\ t_pos t1 = t_pos t2 /\
  match t_type t1 with
  | STRING | USR_ATT | OBJ_ATT | ENV_ATT | ADM_ATT | CON_ATT =>
      exists a b, t_val t1 = TStr a /\ t_val t2 = TStr b /\ recased a b
  | _ => t_val t1 = t_val t2
  end.

Definition step_rc (x y : token * Z * str) : Prop :=
  let '(t1, p1, r1) := x in let '(t2, p2, r2) := y in
  tok_rc t1 t2 /\ p1 = p2 /\ rc r1 r2 /\ is_ascii r1 = true.

Lemma string_loop_rc st p a b :
  rc a b -> is_ascii a = true ->
  rel_res (fun x y => let '(s1, p1, r1) := x in let '(s2, p2, r2) := y in
             rc s1 s2 /\ p1 = p2 /\ rc r1 r2 /\ is_ascii r1 = true)
          (string_loop st p a) (string_loop st p b).
Proof.
  intros H; revert p; induction H as [|x y a b Hc H IH]; intros p Ha; cbn [string_loop].
  - reflexivity.
  - rewrite <- (cc_eqb _ _ 34 Hc), <- (cc_string _ _ Hc) by lia.
    cbn in Ha. apply andb_true_iff in Ha as [Hx Ha].
    destruct (x =? 34)%N. { cbn. repeat split; auto. constructor. }
    destruct (string_char x); [|reflexivity].
    eapply rel_bind; [apply IH; auto|].
    intros [[s1 p1] r1] [[s2 p2] r2] (? & -> & ? & ?). cbn. repeat split; auto. constructor; auto.
Qed.

Lemma span_id_rc p a b :
  rc a b -> is_ascii a = true ->
  let '(s1, p1, r1) := span_id U p a in let '(s2, p2, r2) := span_id U p b in
  rc s1 s2 /\ is_ascii s1 = true /\ p1 = p2 /\ rc r1 r2 /\ is_ascii r1 = true.
Proof.
  intros H; revert p; induction H as [|x y a b Hc H IH]; intros p Ha; cbn [span_id].
  - repeat split; auto; constructor.
  - rewrite <- (cc_id _ _ Hc). pose proof Ha as Ha'.
    cbn in Ha. apply andb_true_iff in Ha as [Hx Ha].
    destruct (idchar U x).
    + specialize (IH (p + 1) Ha). destruct (span_id U (p + 1) a) as [[s1 p1] r1].
      destruct (span_id U (p + 1) b) as [[s2 p2] r2]. destruct IH as (? & ? & -> & ? & ?).
      repeat split; auto. { constructor; auto. } cbn. now rewrite Hx.
    + repeat split; auto; constructor; auto.
Qed.

Lemma att_prefix_type w ty : att_prefix w = Some ty ->
  match ty with USR_ATT | OBJ_ATT | ENV_ATT | ADM_ATT | CON_ATT => True | _ => False end.
Proof. intros H. apply att_prefix_spec in H. destruct H; exact I. Qed.

Lemma lex_word_rc p x y a b :
  cc x y -> asc x = true -> rc a b -> is_ascii a = true ->
  rel_res step_rc (lex_word U p x a) (lex_word U p y b).
Proof.
  intros Hc Hx H Ha. unfold lex_word.
  pose proof (span_id_rc (p + 1) a b H Ha) as Hs.
  destruct (span_id U (p + 1) a) as [[s1 p1] r1].
  destruct (span_id U (p + 1) b) as [[s2 p2] r2]. destruct Hs as (Hs & Hsa & -> & Hr & Hra).
  cbv zeta.
  assert (Hw : rc (x :: s1) (y :: s2)) by (constructor; auto).
  assert (Hwa : is_ascii (x :: s1) = true) by (cbn; now rewrite Hx).
  rewrite <- (rc_lower _ _ Hwa Hw), <- (rc_upper _ _ Hwa Hw).
  set (lw := py_lower U (x :: s1)). set (uw := py_upper U (x :: s1)).
  assert (Hdot : match r1 with d :: _ => (d =? 46)%N | [] => false end =
                 match r2 with d :: _ => (d =? 46)%N | [] => false end).
  { destruct Hr as [|d e r1 r2 Hd _]; auto. now rewrite (cc_eqb _ _ 46 Hd) by lia. }
  rewrite <- Hdot. destruct (match r1 with d :: _ => (d =? 46)%N | [] => false end).
  - destruct Hr as [|d0 e0 r1 r2 _ Hr]; [reflexivity|]. cbn [tl].
    destruct Hr as [|d e r1 r2 Hd Hr]; [reflexivity|].
    rewrite <- (cc_id _ _ Hd). destruct (idchar U d); [|reflexivity].
    assert (Ha2 : is_ascii r1 = true).
    { cbn in Hra. apply andb_true_iff in Hra as [_ Hra]. now apply andb_true_iff in Hra as [_ Hra]. }
    pose proof (span_id_rc (p2 + 2) r1 r2 Hr Ha2) as Hs2.
    destruct (span_id U (p2 + 2) r1) as [[s3 p3] r3].
    destruct (span_id U (p2 + 2) r2) as [[s4 p4] r4]. destruct Hs2 as (Hs2 & _ & -> & Hr2 & Hra2).
    destruct (att_prefix lw) as [ty|] eqn:Ep; [|reflexivity].
    cbn. repeat split; auto. cbn.
    assert (G : exists a0 b0 : str, TStr (d :: s3) = TStr a0 /\ TStr (e :: s4) = TStr b0 /\ recased a0 b0).
    { exists (d :: s3), (e :: s4). repeat split. apply recased_rc. constructor; auto. }
    apply att_prefix_type in Ep. destruct ty; auto; contradiction.
  - repeat match goal with
    | |- rel_res _ (if ?c then _ else _) (if ?c then _ else _) => destruct c
    end; cbn; repeat split; auto.
Qed.

Lemma lex_char_rc p x y a b :
  cc x y -> asc x = true -> rc a b -> is_ascii a = true ->
  rel_res step_rc (lex_char U p x a) (lex_char U p y b).
Proof.
  intros Hc Hx H Ha. unfold lex_char.
  assert (Hh : head_is 61 a = head_is 61 b).
  { destruct H as [|d e a b Hd _]; auto. cbn. now apply cc_eqb; [|lia]. }
  assert (Ht : rc (tl a) (tl b)) by (destruct H; [constructor|auto]).
  assert (Hta : is_ascii (tl a) = true).
  { destruct a; auto. cbn in Ha. now apply andb_true_iff in Ha as [_ Ha]. }
  rewrite <- Hh.
  rewrite <- (cc_eqb _ _ 123 Hc), <- (cc_eqb _ _ 125 Hc), <- (cc_eqb _ _ 44 Hc),
    <- (cc_eqb _ _ 40 Hc), <- (cc_eqb _ _ 41 Hc), <- (cc_eqb _ _ 61 Hc),
    <- (cc_eqb _ _ 62 Hc), <- (cc_eqb _ _ 60 Hc), <- (cc_eqb _ _ 33 Hc),
    <- (cc_eqb _ _ 34 Hc), <- (cc_eqb _ _ 45 Hc) by lia.
  do 6 (match goal with |- rel_res _ (if ?c then _ else _) _ => destruct c end;
        [cbn; repeat split; auto|]).
  do 3 (match goal with |- rel_res _ (if ?c then _ else _) _ => destruct c end;
        [destruct (head_is 61 a); cbn; repeat split; auto|]).
  destruct (x =? 34)%N.
  { eapply rel_bind; [apply string_loop_rc; auto|].
    intros [[s1 p1] r1] [[s2 p2] r2] (Hs & -> & ? & ?). cbn. repeat split; auto.
    cbn. exists s1, s2. repeat split. now apply recased_rc. }
  assert (Hd : match a with d :: _ => isdigit U d | [] => false end =
               match b with d :: _ => isdigit U d | [] => false end).
  { destruct H as [|d e a b Hd _]; auto. now apply cc_digit. }
  rewrite <- Hd, <- (cc_digit _ _ Hc), <- (cc_alpha _ _ Hc).
  destruct (isdigit U x || _) eqn:En.
  { assert (x = y) as <-.
    { apply orb_true_iff in En as [En|En]; [now apply cc_digit_eq|].
      apply andb_true_iff in En as [En _]. apply N.eqb_eq in En as ->.
      destruct Hc as [<-|(Hl & _)]; auto. apply cc_letter_range in Hl. lia. }
    unfold lex_number. eapply rel_bind; [apply num_loop_rc; auto|].
    intros [[[f1 c1] p1] r1] [[[f2 c2] p2] r2] (-> & -> & -> & ? & ?).
    destruct f2.
    - destruct (py_float U (x :: c2)); cbn; repeat split; auto.
    - destruct (py_int U (x :: c2)); cbn; repeat split; auto. }
  destruct (isalpha U x).
  - now apply lex_word_rc.
  - reflexivity.
Qed.

Definition lx_rc (l1 l2 : lexer) : Prop :=
  lx_pos l1 = lx_pos l2 /\ rc (lx_rest l1) (lx_rest l2) /\ is_ascii (lx_rest l1) = true /\
  Forall2 tok_rc (lx_toks l1) (lx_toks l2).


Lemma last_type_map ts1 ts2 : Forall2 tok_rc ts1 ts2 -> last_type ts1 = last_type ts2.
Proof.
  intros H. unfold last_type.
  assert (E : map t_type ts1 = map t_type ts2).
  { induction H as [|x y a b Hx H IH]; cbn; auto. destruct Hx as [-> _]. now rewrite IH. }
  apply (f_equal (@rev _)) in E. rewrite <- !map_rev in E.
  destruct (rev ts1), (rev ts2); cbn in E; congruence.
Qed.

Lemma lex_next_rc l1 l2 :
  lx_rc l1 l2 ->
  rel_res (fun x y => (match fst x, fst y with
                       | Some t1, Some t2 => tok_rc t1 t2 | None, None => True | _, _ => False end)
                      /\ lx_rc (snd x) (snd y))
          (lex_next U l1) (lex_next U l2).
Proof.
  intros (Hp & Hr & Ha & Ht). unfold lex_next. rewrite <- Hp, <- (last_type_map _ _ Ht).
  pose proof (skip_ws_rc _ _ (lx_pos l1) Hr Ha) as Hs.
  destruct (skip_ws U (lx_pos l1) (lx_rest l1)) as [p1 r1].
  destruct (skip_ws U (lx_pos l1) (lx_rest l2)) as [p2 r2]. destruct Hs as (-> & Hs & Hsa).
  assert (Et : tok_rc (Tok END p2 TNone) (Tok END p2 TNone)) by (repeat split).
  destruct Hs as [|x y r1 r2 Hc Hs].
  - destruct (last_type (lx_toks l1)) as [[]|]; cbn; repeat split; auto;
    try constructor; apply Forall2_app; auto.
  - cbn in Hsa. apply andb_true_iff in Hsa as [Hx Hsa].
    eapply rel_bind; [apply lex_char_rc; auto|].
    intros [[t1 p1] q1] [[t2 p3] q2] (Hk & -> & ? & ?). cbn. split; auto.
    repeat split; auto. apply Forall2_app; auto.
Qed.

Lemma tokenize_loop_rc fuel l1 l2 :
  lx_rc l1 l2 -> rel_res lx_rc (tokenize_loop U fuel l1) (tokenize_loop U fuel l2).
Proof.
  revert l1 l2; induction fuel as [|fuel IH]; intros l1 l2 H; cbn [tokenize_loop]; [reflexivity|].
  eapply rel_bind; [apply lex_next_rc; eauto|].
  intros [[t1|] m1] [[t2|] m2] [Ht Hm]; cbn in *; auto; contradiction.
Qed.

Theorem lex_text_recased a b :
  is_ascii a = true -> recased a b ->
  rel_res (Forall2 tok_rc) (lex_text U a) (lex_text U b).
Proof.
  intros Ha H. apply rc_recased in H. unfold lex_text, tokenize.
  assert (El : List.length (lx_rest (lexer_init a)) = List.length (lx_rest (lexer_init b))).
  { cbn. clear Ha. induction H; cbn; auto. }
  rewrite El.
  eapply rel_bind; [apply tokenize_loop_rc; unfold lexer_init|].
  - repeat split; auto. constructor; auto. repeat split.
  - intros l1 l2 (_ & _ & _ & Ht). exact Ht.
Qed.

End WithUnicode.
