(** * ShowProofs: printed texts can be read back *)

From Coq Require Import NArith ZArith List Bool String Lia SpecFloat.
From Verif Require Import PyBase PyNum Lexer LexSpec Values Ast Symbols AttCert Errors Demo LexDiag Diag Grammar
  ParseProofs2 CodecSpec CertProofs3 Show ShowSpec.
Import ListNotations.
Open Scope Z_scope.

(** ** Splitting a text *)

Definition stops (p : N -> Prop) (x : str) : Prop := match x with [] => True | c :: _ => ~ p c end.

Lemma span_eq (p : N -> Prop) : forall a b x y,
  Forall p a -> Forall p b -> stops p x -> stops p y -> a ++ x = b ++ y -> a = b /\ x = y.
Proof.
  induction a as [|c a IH]; intros [|d b] x y A B X Y E; cbn [app] in E; [auto| | |].
  - subst x. inversion B; subst. contradiction.
  - subst y. inversion A; subst. contradiction.
  - injection E as -> E. inversion A; subst. inversion B; subst. destruct (IH b x y) as [-> ->]; auto.
Qed.

Lemma app_split : forall (a b x y : str), List.length a = List.length b -> a ++ x = b ++ y -> a = b /\ x = y.
Proof.
  induction a as [|c a IH]; intros [|d b] x y L E; try discriminate; [auto|].
  cbn [app] in E. injection E as -> E. injection L as L. destruct (IH b x y L E) as [-> ->]. auto.
Qed.

(** ** Hexadecimal digits *)

Lemma hex_length w : forall n, List.length (hex w n) = w.
Proof. induction w as [|w IH]; intros n; [reflexivity|]. cbn [hex]. rewrite app_length, IH. cbn. lia. Qed.

Lemma hex_digit_inj a b : (a < 16)%N -> (b < 16)%N -> hex_digit a = hex_digit b -> a = b.
Proof. unfold hex_digit. intros A B. destruct (N.ltb_spec a 10); destruct (N.ltb_spec b 10); lia. Qed.

Lemma hex_inj w : forall a b, (a < 16 ^ N.of_nat w)%N -> (b < 16 ^ N.of_nat w)%N -> hex w a = hex w b -> a = b.
Proof.
  induction w as [|w IH]; intros a b A B E; [cbn in A, B; lia|].
  rewrite Nat2N.inj_succ, N.pow_succ_r' in A, B. cbn [hex] in E. apply app_inj_tail in E as [E1 E2].
  apply hex_digit_inj in E2; try (apply N.mod_lt; discriminate).
  apply IH in E1; try (apply N.div_lt_upper_bound; lia).
  rewrite (N.div_mod a 16), (N.div_mod b 16), E1, E2 by discriminate. reflexivity.
Qed.

Lemma hex_chars w : forall n, Forall (fun c => 48 <= c <= 57 \/ 97 <= c <= 102)%N (hex w n).
Proof.
  induction w as [|w IH]; intros n; [constructor|]. cbn [hex]. apply Forall_app. split; [apply IH|]. constructor; [|constructor].
  unfold hex_digit. assert (n mod 16 < 16)%N by (apply N.mod_lt; discriminate).
  generalize dependent (n mod 16)%N. intros m M. destruct (N.ltb_spec m 10); lia.
Qed.

(** ** repr() of a str *)

Section WithPython.
Variable printable : N -> bool.
Notation escape := (escape printable).
Notation str_repr := (str_repr printable).

(** Number of digits after backslash and [k], and the character meant by [k] alone. *)
Definition width (k : N) : nat := if (k =? 120)%N then 2 else if (k =? 117)%N then 4 else if (k =? 85)%N then 8 else 0.
Definition meant (k : N) : N := if (k =? 116)%N then 9 else if (k =? 110)%N then 10 else if (k =? 114)%N then 13 else k.

Definition quoted (q : N) : Prop := q = 34%N \/ q = 39%N.

Lemma escape_form q c : quoted q -> code_point c ->
  (escape q c = [c] /\ c <> 92%N /\ c <> q) \/
  (exists k, escape q c = 92%N :: k :: hex (width k) c /\
     ((width k = 0%nat /\ c = meant k) \/ (c < 16 ^ N.of_nat (width k))%N /\ width k <> 0%nat)).
Proof.
  intros Q C. unfold code_point in C. unfold Show.escape.
  destruct (N.eqb_spec c q) as [->|Hq].
  { right. exists q. destruct Q as [-> | ->]; cbn; auto. }
  destruct (N.eqb_spec c 92) as [->|H92]; [right; exists 92%N; cbn; auto|]. cbn [orb].
  destruct (N.eqb_spec c 9) as [->|H9]; [right; exists 116%N; cbn; auto|].
  destruct (N.eqb_spec c 10) as [->|H10]; [right; exists 110%N; cbn; auto|].
  destruct (N.eqb_spec c 13) as [->|H13]; [right; exists 114%N; cbn; auto|].
  destruct ((c <? 32) || (c =? 127))%N eqn:E1.
  { right. exists 120%N. split; [reflexivity|]. right. split; [|discriminate]. apply orb_true_iff in E1 as [E|E];
      [apply N.ltb_lt in E|apply N.eqb_eq in E]; cbn; lia. }
  destruct (c <? 127)%N; [left; auto|]. destruct (printable c); [left; auto|].
  destruct (N.ltb_spec c 256); [right; exists 120%N; split; [reflexivity|]; right; split; [cbn; lia|discriminate]|].
  destruct (N.ltb_spec c 65536); [right; exists 117%N; split; [reflexivity|]; right; split; [cbn; lia|discriminate]|].
  right; exists 85%N; split; [reflexivity|]; right; split; [cbn; lia|discriminate].
Qed.

Lemma escape_prefix q c d x y : quoted q -> code_point c -> code_point d ->
  escape q c ++ x = escape q d ++ y -> c = d /\ x = y.
Proof.
  intros Q C D E.
  destruct (escape_form q c Q C) as [(Ec & Nc & _)|(k & Ec & Kc)]; destruct (escape_form q d Q D) as [(Ed & Nd & _)|(m & Ed & Kd)];
    rewrite Ec, Ed in E; cbn [app] in E; injection E; intros; subst; auto; try congruence.
  apply app_split in H as [H H']; [|now rewrite !hex_length]. split; [|exact H'].
  destruct Kc as [[W Hc]|[Hc W]]; destruct Kd as [[W' Hd]|[Hd W']]; try congruence. eapply hex_inj; eauto.
Qed.

Lemma escape_open q c x : quoted q -> code_point c -> exists k y, escape q c ++ x = k :: y /\ k <> q.
Proof.
  intros Q C. destruct (escape_form q c Q C) as [(Ec & _ & Nq)|(k & Ec & _)]; rewrite Ec; cbn [app]; do 2 eexists; split; eauto.
  destruct Q as [-> | ->]; discriminate.
Qed.

Lemma body_prefix q : quoted q -> forall s u x y, Forall code_point s -> Forall code_point u ->
  flat_map (escape q) s ++ q :: x = flat_map (escape q) u ++ q :: y -> s = u /\ x = y.
Proof.
  intros Q. induction s as [|c s IH]; intros [|d u] x y S U E; cbn [flat_map app] in E; rewrite <- ?app_assoc in E.
  - injection E as ->. auto.
  - inversion U; subst. destruct (escape_open q d (flat_map (escape q) u ++ q :: y) Q) as (k & z & Ek & Nk); auto.
    rewrite Ek in E. congruence.
  - inversion S; subst. destruct (escape_open q c (flat_map (escape q) s ++ q :: x) Q) as (k & z & Ek & Nk); auto.
    rewrite Ek in E. congruence.
  - inversion S; subst. inversion U; subst. apply escape_prefix in E as [-> E]; auto. destruct (IH u x y) as [-> ->]; auto.
Qed.

Lemma quote_quoted s : quoted (quote s).
Proof. unfold quote, quoted. destruct (_ && _); auto. Qed.

Lemma str_repr_prefix s u x y : Forall code_point s -> Forall code_point u ->
  str_repr s ++ x = str_repr u ++ y -> s = u /\ x = y.
Proof.
  intros S U E. unfold Show.str_repr in E. cbn [app] in E. injection E as Q E. rewrite <- Q, <- !app_assoc in E. cbn [app] in E.
  exact (body_prefix _ (quote_quoted s) _ _ _ _ S U E).
Qed.

Lemma str_repr_head s : exists q r, str_repr s = q :: r /\ quoted q.
Proof. unfold Show.str_repr. exists (quote s). eexists. split; [reflexivity|apply quote_quoted]. Qed.

(** Nothing printed by repr() of a str ends a line. *)
Lemma hex_no_nl w n : ~ In nl (hex w n).
Proof. intros H. pose proof (hex_chars w n) as F. rewrite Forall_forall in F. apply F in H. unfold nl in H. lia. Qed.

Lemma escape_no_nl q c : quoted q -> ~ In nl (escape q c).
Proof.
  intros Q. assert (H2 : forall a b l, a <> nl -> b <> nl -> ~ In nl l -> ~ In nl ([a; b] ++ l)).
  { intros a b l A B L [H|[H|H]]; auto. }
  unfold Show.escape. destruct (N.eqb_spec c q) as [->|Hq]; [destruct Q as [-> | ->]; cbn; unfold nl; intuition discriminate|].
  destruct (N.eqb_spec c 92) as [->|H92]; [cbn; unfold nl; intuition discriminate|]. cbn [orb].
  destruct (N.eqb_spec c 9) as [->|H9]; [cbn; unfold nl; intuition discriminate|].
  destruct (N.eqb_spec c 10) as [->|H10]; [cbn; unfold nl; intuition discriminate|].
  destruct (N.eqb_spec c 13) as [->|H13]; [cbn; unfold nl; intuition discriminate|].
  assert (Hc : ~ In nl [c]) by (cbn; unfold nl; tauto).
  repeat match goal with |- ~ In nl (if ?b then _ else _) => destruct b; auto end;
    apply H2; try (unfold nl; discriminate); apply hex_no_nl.
Qed.

Lemma str_repr_no_nl s : ~ In nl (str_repr s).
Proof.
  intros H. unfold Show.str_repr in H. pose proof (quote_quoted s) as Q. apply in_app_iff in H as [H|H].
  - destruct H as [H|[]]. destruct Q as [E|E]; rewrite E in H; discriminate.
  - apply in_app_iff in H as [H|H].
    + apply in_flat_map in H as (c & _ & H). exact (escape_no_nl _ c Q H).
    + destruct H as [H|[]]. destruct Q as [E|E]; rewrite E in H; discriminate.
Qed.

End WithPython.

(** ** Numbers *)

Lemma dec_chars : forall f n acc, Forall digit_char acc -> Forall digit_char (dec_digits f n acc).
Proof.
  induction f as [|f IH]; intros n acc A; [exact A|]. cbn [dec_digits]. cbv zeta.
  assert (D : Forall digit_char ((48 + n mod 10)%N :: acc)).
  { constructor; [|exact A]. assert (n mod 10 < 10)%N by (apply N.mod_lt; discriminate). unfold digit_char.
    generalize dependent (n mod 10)%N. intros; lia. }
  destruct (n <? 10)%N; auto.
Qed.
Lemma dec_tail : forall f n acc, exists d, dec_digits (S f) n acc = d ++ acc /\ d <> [] /\ Forall (fun c => 48 <= c <= 57)%N d.
Proof.
  induction f as [|f IH]; intros n acc; cbn [dec_digits]; cbv zeta;
    assert (M : (48 <= 48 + n mod 10 <= 57)%N) by
      (assert (n mod 10 < 10)%N by (apply N.mod_lt; discriminate); generalize dependent (n mod 10)%N; intros; lia).
  - exists [(48 + n mod 10)%N]. destruct (n <? 10)%N; split; auto; split; auto; discriminate.
  - destruct (n <? 10)%N; [exists [(48 + n mod 10)%N]; split; auto; split; auto; discriminate|].
    destruct (IH (n / 10)%N ((48 + n mod 10)%N :: acc)) as (d & E & Nd & F). cbn [dec_digits] in E. cbv zeta in E.
    exists (d ++ [(48 + n mod 10)%N]). rewrite E, <- app_assoc. split; [reflexivity|]. split.
    + intros K. apply app_eq_nil in K as [_ K]. discriminate.
    + apply Forall_app. auto.
Qed.
Lemma dec_val : forall f n acc, (n < 2 ^ N.of_nat f)%N ->
  fold_left (fun m c => m * 10 + (c - 48))%N (dec_digits f n acc) 0%N = fold_left (fun m c => m * 10 + (c - 48))%N acc n.
Proof.
  induction f as [|f IH]; intros n acc L; [cbn in *; replace n with 0%N by lia; reflexivity|].
  cbn [dec_digits]. cbv zeta. rewrite Nat2N.inj_succ, N.pow_succ_r' in L.
  assert (S : forall m, fold_left (fun m c => m * 10 + (c - 48))%N ((48 + n mod 10)%N :: acc) m
                        = fold_left (fun m c => m * 10 + (c - 48))%N acc (m * 10 + n mod 10)%N).
  { intros m. cbn [fold_left]. f_equal. generalize (n mod 10)%N. intros; lia. }
  destruct (N.ltb_spec n 10).
  - rewrite S. f_equal. rewrite N.mod_small by assumption. reflexivity.
  - rewrite IH by (apply N.div_lt_upper_bound; lia). rewrite S. f_equal. pose proof (N.div_mod n 10). lia.
Qed.

Lemma Z_chars z : Forall digit_char (str_of_Z z).
Proof.
  unfold str_of_Z. cbv zeta. destruct (z <? 0); [constructor; [now left|]|]; apply dec_chars; constructor.
Qed.
Lemma Z_head z : exists c r, str_of_Z z = c :: r /\ digit_char c.
Proof.
  pose proof (Z_chars z) as F. destruct (str_of_Z z) as [|c r] eqn:E.
  - exfalso. revert E. unfold str_of_Z. cbv zeta. destruct (z <? 0); [discriminate|].
    destruct (dec_tail (N.to_nat (N.log2 (Z.abs_N z))) (Z.abs_N z) []) as (d & -> & Nd & _). rewrite app_nil_r. exact Nd.
  - inversion F; subst. eauto.
Qed.
Lemma Z_inj a b : str_of_Z a = str_of_Z b -> a = b.
Proof.
  assert (V : forall n, fold_left (fun m c => m * 10 + (c - 48))%N (dec_digits (S (N.to_nat (N.log2 n))) n []) 0%N = n).
  { intros n. rewrite dec_val; [reflexivity|]. rewrite Nat2N.inj_succ, N2Nat.id. destruct (N.eq_dec n 0) as [->|NZ]; [reflexivity|].
    apply N.log2_spec. lia. }
  unfold str_of_Z. cbv zeta. set (da := dec_digits _ (Z.abs_N a) []). set (db := dec_digits _ (Z.abs_N b) []).
  assert (A : fold_left (fun m c => m * 10 + (c - 48))%N da 0%N = Z.abs_N a) by apply V.
  assert (B : fold_left (fun m c => m * 10 + (c - 48))%N db 0%N = Z.abs_N b) by apply V.
  assert (HA : exists c r, da = c :: r /\ (48 <= c <= 57)%N).
  { destruct (dec_tail (N.to_nat (N.log2 (Z.abs_N a))) (Z.abs_N a) []) as ([|c r] & E & Nd & F); [congruence|].
    inversion F; subst. exists c, (r ++ []). auto. }
  assert (HB : exists c r, db = c :: r /\ (48 <= c <= 57)%N).
  { destruct (dec_tail (N.to_nat (N.log2 (Z.abs_N b))) (Z.abs_N b) []) as ([|c r] & E & Nd & F); [congruence|].
    inversion F; subst. exists c, (r ++ []). auto. }
  clearbody da db. destruct (Z.ltb_spec a 0); destruct (Z.ltb_spec b 0); intros E.
  - injection E as E. rewrite E in A. lia.
  - destruct HB as (c & r & -> & K). injection E as <- _. lia.
  - destruct HA as (c & r & -> & K). injection E as -> _. lia.
  - rewrite E in A. lia.
Qed.

(** ** Tokens *)

Definition name_char (c : N) : Prop := (65 <= c <= 90 \/ 97 <= c <= 122 \/ c = 95)%N.
Definition name_charb (c : N) : bool := ((65 <=? c) && (c <=? 90) || (97 <=? c) && (c <=? 122) || (c =? 95))%N.
Lemma name_chars s : forallb name_charb s = true -> Forall name_char s.
Proof.
  rewrite forallb_forall, Forall_forall. intros H c I. apply H in I. unfold name_charb in I. unfold name_char.
  rewrite !orb_true_iff, !andb_true_iff, !N.leb_le, N.eqb_eq in I. lia.
Qed.
Lemma type_name_chars ty : Forall name_char (type_name ty).
Proof. destruct ty; apply name_chars; vm_compute; reflexivity. Qed.
Lemma type_name_inj a b : type_name a = type_name b -> a = b.
Proof. destruct a, b; try reflexivity; vm_compute; discriminate. Qed.
Lemma class_name_chars c : Forall name_char (class_name c).
Proof. destruct c; apply name_chars; vm_compute; reflexivity. Qed.

Lemma truthy_empty v : val_truthy v = false <-> empty_value v.
Proof.
  unfold empty_value. split.
  - destruct v as [|[|c s]|z|f]; cbn [val_truthy is_nil negb]; intros H; auto; try discriminate.
    + destruct z; cbn in H; try discriminate. auto.
    + destruct f; cbn in H; try discriminate; [right; right; right; eauto|]. destruct s; discriminate.
  - intros [->|[->|[->|[s ->]]]]; reflexivity.
Qed.

Section WithTexts.
Variable printable : N -> bool.
Variable P : pytext.
Hypothesis FT : float_texts P.
Notation val_repr := (val_repr printable P).
Notation token_repr := (token_repr printable P).

Lemma float_head f : exists c r, show_float P f = c :: r /\ number_char c.
Proof.
  pose proof (ft_chars P FT f) as C. pose proof (ft_mark P FT f) as M. destruct (show_float P f) as [|c r]; [destruct M; constructor|].
  inversion C; subst. eauto.
Qed.

Lemma digit_number c : digit_char c -> number_char c.
Proof. unfold digit_char, number_char. lia. Qed.

Lemma paren_number x : stops number_char (41%N :: x).
Proof. unfold stops, number_char. lia. Qed.
Lemma paren_digit x : stops digit_char (41%N :: x).
Proof. unfold stops, digit_char. lia. Qed.
Lemma comma_digit x : stops digit_char (44%N :: x).
Proof. unfold stops, digit_char. lia. Qed.
Hint Resolve paren_number paren_digit comma_digit : core.
Lemma float_chars f : Forall number_char (show_float P f).
Proof. apply (ft_chars P FT). Qed.
Hint Resolve float_chars Z_chars : core.

Lemma quoted_number q : quoted q -> ~ number_char q.
Proof. unfold quoted, number_char. lia. Qed.

Lemma val_prefix_at k v w x y : ~ number_char k ->
  Forall code_point (value_text v) -> Forall code_point (value_text w) ->
  val_repr v ++ k :: x = val_repr w ++ k :: y -> v = w /\ x = y.
Proof.
  intros NK CV CW E.
  assert (SK : forall z, stops number_char (k :: z)) by (intros z; exact NK).
  assert (NZ : forall z, Forall number_char (str_of_Z z)) by (intros z; eapply Forall_impl; [exact digit_number|apply Z_chars]).
  assert (SN : forall s u x y, Forall number_char u -> u <> [] -> str_repr printable s ++ x = u ++ y -> False).
  { intros s u x' y' F U K. destruct (str_repr_head printable s) as (q & r & Eq & Q). destruct u as [|c u]; [congruence|].
    rewrite Eq in K. cbn [app] in K. injection K as -> _. inversion F; subst. exact (quoted_number _ Q H1). }
  assert (ON : forall u x y, Forall number_char u -> u <> [] -> lit "None" ++ x = u ++ y -> False).
  { intros u x' y' F U K. destruct u as [|c u]; [congruence|]. injection K as K _. inversion F; subst.
    match goal with H : number_char _ |- _ => revert H end. unfold number_char. lia. }
  assert (OS : forall s x y, lit "None" ++ x = str_repr printable s ++ y -> False).
  { intros s x' y' K. destruct (str_repr_head printable s) as (q & r & Eq & Q). rewrite Eq in K. injection K as <- _.
    revert Q. unfold quoted. lia. }
  assert (ZN : forall z, str_of_Z z <> []) by (intros z; destruct (Z_head z) as (c & r & -> & _); discriminate).
  assert (FN : forall f, show_float P f <> []) by (intros f; destruct (float_head f) as (c & r & -> & _); discriminate).
  assert (ZF : forall z f x y, str_of_Z z ++ k :: x = show_float P f ++ k :: y -> False).
  { intros z f x' y' K. apply (span_eq number_char) in K as [K _]; auto.
    apply (ft_mark P FT f). rewrite <- K. apply Z_chars. }
  destruct v as [|s|z|f]; destruct w as [|u|z'|f']; cbn [Show.val_repr value_text] in *.
  - apply app_inv_head in E. injection E as ->. auto.
  - exfalso. eapply OS; eauto.
  - exfalso. eapply (ON (str_of_Z z')); eauto.
  - exfalso. eapply (ON (show_float P f')); eauto.
  - exfalso. eapply OS; eauto.
  - apply str_repr_prefix in E as [-> E]; auto. injection E as ->. auto.
  - exfalso. eapply (SN s (str_of_Z z')); eauto.
  - exfalso. eapply (SN s (show_float P f')); eauto.
  - exfalso. eapply (ON (str_of_Z z)); eauto.
  - exfalso. eapply (SN u (str_of_Z z)); eauto.
  - apply (span_eq number_char) in E as [E E']; auto. apply Z_inj in E. injection E' as ->. subst. auto.
  - exfalso. eapply ZF; eauto.
  - exfalso. eapply (ON (show_float P f)); eauto.
  - exfalso. eapply (SN u (show_float P f)); eauto.
  - exfalso. eapply ZF; eauto.
  - apply (span_eq number_char) in E as [E E']; auto.
    apply (ft_inj P FT) in E. injection E' as ->. subst. auto.
Qed.

Lemma val_prefix v w x y : val_truthy v = true -> val_truthy w = true ->
  Forall code_point (value_text v) -> Forall code_point (value_text w) ->
  val_repr v ++ 41%N :: x = val_repr w ++ 41%N :: y -> v = w /\ x = y.
Proof. intros _ _. apply val_prefix_at. unfold number_char. lia. Qed.

Lemma val_nonempty v : val_truthy v = true -> is_nil (val_repr v) = false.
Proof.
  destruct v as [|s|z|f]; intros H; try discriminate; cbn [Show.val_repr]; [reflexivity| |].
  - destruct (Z_head z) as (c & r & -> & _). reflexivity.
  - destruct (float_head f) as (c & r & -> & _). reflexivity.
Qed.

(** The text after the type. *)
Definition token_tail (t : token) : str :=
  if val_truthy (t_val t) then
    if 0 <=? t_pos t then lit ", " ++ str_of_Z (t_pos t) ++ lit ", " ++ val_repr (t_val t) ++ lit ")"
    else lit ", value=" ++ val_repr (t_val t) ++ lit ")"
  else if 0 <=? t_pos t then lit ", " ++ str_of_Z (t_pos t) ++ lit ")" else lit ")".

Lemma token_repr_form t : token_repr t = lit "Token(TokenType." ++ type_name (t_type t) ++ token_tail t.
Proof.
  unfold Show.token_repr, token_tail, type_str. destruct (val_truthy (t_val t)) eqn:T.
  - rewrite (val_nonempty _ T). cbn [andb negb]. destruct (0 <=? t_pos t); rewrite <- !app_assoc; reflexivity.
  - cbn [andb]. destruct (0 <=? t_pos t); rewrite <- !app_assoc; reflexivity.
Qed.

Lemma tail_stops t x : stops name_char (token_tail t ++ x).
Proof.
  unfold token_tail. destruct (val_truthy (t_val t)); destruct (0 <=? t_pos t); cbn; unfold name_char; lia.
Qed.

Lemma lit_cs : lit ", " = [44; 32]%N. Proof. reflexivity. Qed.
Lemma lit_rp : lit ")" = [41]%N. Proof. reflexivity. Qed.
Lemma lit_cv : lit ", value=" = [44; 32; 118; 97; 108; 117; 101; 61]%N. Proof. reflexivity. Qed.

Lemma tail_prefix t u x y :
  Forall code_point (value_text (t_val t)) -> Forall code_point (value_text (t_val u)) ->
  token_tail t ++ x = token_tail u ++ y -> same_pos (t_pos t) (t_pos u) /\ same_value (t_val t) (t_val u) /\ x = y.
Proof.
  intros CT CU E. unfold token_tail in E. unfold same_pos, same_value. rewrite <- !truthy_empty.
  assert (ZZ : forall a b m n, stops digit_char m -> stops digit_char n -> str_of_Z a ++ m = str_of_Z b ++ n -> a = b /\ m = n).
  { intros a b m n M N K. apply (span_eq digit_char) in K as [K K']; auto using Z_chars. split; [now apply Z_inj|exact K']. }
  assert (ZV : forall a m n, str_of_Z a ++ m = 118%N :: n -> False).
  { intros a m n K. destruct (Z_head a) as (c & r & Ea & D). rewrite Ea in K. cbn [app] in K. injection K as -> _. revert D. unfold digit_char. lia. }
  destruct (val_truthy (t_val t)) eqn:TT; destruct (val_truthy (t_val u)) eqn:TU;
  destruct (Z.leb_spec 0 (t_pos t)) as [LT|LT]; destruct (Z.leb_spec 0 (t_pos u)) as [LU|LU];
  rewrite <- ?app_assoc, ?lit_cs, ?lit_cv, ?lit_rp in E; cbn [app] in E; try discriminate E; injection E as E;
  try (exfalso; eapply ZV; eassumption); try (exfalso; eapply ZV; symmetry; eassumption).
  all: try (apply ZZ in E as [-> E]; auto).
  all: try discriminate E.
  all: try (injection E as E).
  all: try (apply val_prefix in E as [-> E]; auto).
  all: subst; auto.
Qed.

Lemma token_prefix t u x y :
  Forall code_point (value_text (t_val t)) -> Forall code_point (value_text (t_val u)) ->
  token_repr t ++ x = token_repr u ++ y -> same_token t u /\ x = y.
Proof.
  intros CT CU E. rewrite !token_repr_form, <- !app_assoc in E. apply app_inv_head in E.
  apply (span_eq name_char) in E as [E E']; auto using type_name_chars, tail_stops.
  apply type_name_inj in E. apply tail_prefix in E' as (A & B & C); auto. repeat split; auto.
Qed.

Lemma token_same t u : same_token t u -> token_repr t = token_repr u.
Proof.
  intros (T & Q & V). rewrite !token_repr_form, T. do 2 f_equal. unfold token_tail.
  destruct V as [V|[V V']].
  - rewrite V. destruct Q as [->|[A B]]; [reflexivity|]. apply Z.leb_gt in A, B. now rewrite A, B.
  - apply truthy_empty in V, V'. rewrite V, V'. destruct Q as [->|[A B]]; [reflexivity|]. apply Z.leb_gt in A, B. now rewrite A, B.
Qed.

End WithTexts.
