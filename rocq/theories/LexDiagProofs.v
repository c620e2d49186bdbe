(** * LexDiagProofs: the faults found by the lexer are those of the specification *)

From Coq Require Import NArith ZArith List Bool String Lia.
From Verif Require Import PyBase PyNum Lexer LexSpec LexProofs LexProofs2 LexDiag LexDiagSpec.
Import ListNotations.
Open Scope Z_scope.

Lemma last_cons (d c : N) (s : str) : List.last (d :: s) c = List.last s d.
Proof. revert d c; induction s as [|e s IH]; intros d c; [reflexivity|]. rewrite (IH e d), <- (IH e c). reflexivity. Qed.

Lemma last_snoc_cons (c : N) (s : str) : exists w, c :: s = w ++ [List.last s c].
Proof.
  revert c; induction s as [|d s IH]; intros c; [exists []; reflexivity|].
  destruct (IH d) as (w & E). exists (c :: w). rewrite last_cons. cbn [app]. now rewrite <- E.
Qed.
Lemma last_snoc (w : str) (d c : N) : List.last (w ++ [d]) c = d.
Proof. apply last_last. Qed.

Lemma nil_or_snoc (l : str) : l = [] \/ exists w d, l = w ++ [d].
Proof. destruct l as [|c l]; [auto|]. destruct (last_snoc_cons c l) as (w & E). rewrite E. eauto. Qed.

Lemma raise_inj {A} x p r x' p' r' : @LRaise A x p r = LRaise x' p' r' -> x' = x /\ p' = p /\ r' = r.
Proof. intros [= -> -> ->]. auto. Qed.

Section WithUnicode.
Variable U : unicode.
Hypothesis uok : unicode_ok U.
Notation digit := (digit U).
Notation id_char := (id_char U).

(** ** The same lexer *)

Lemma forget_bind {A B} (m : lres A) (f : A -> lres B) :
  lforget (lbind m f) = bind (lforget m) (fun a => lforget (f a)).
Proof. destruct m; reflexivity. Qed.

Lemma forget_num isf start pos cur rest :
  lforget (ld_num U isf start pos cur rest) = num_loop U isf pos rest.
Proof.
  revert isf pos cur; induction rest as [|c r IH]; intros isf pos cur; cbn [ld_num num_loop]; [reflexivity|].
  destruct (isdigit U c).
  { rewrite forget_bind, IH. destruct (num_loop U isf (pos + 1) r) as [[[[]]]|]; reflexivity. }
  destruct (c =? 46)%N; [|reflexivity]. destruct isf; [reflexivity|].
  destruct r as [|d r]; [reflexivity|]. destruct (isdigit U d); [|reflexivity].
  rewrite forget_bind, IH. destruct (num_loop U true (pos + 1) (d :: r)) as [[[[]]]|]; reflexivity.
Qed.

Lemma forget_string start pos rest : lforget (ld_string start pos rest) = string_loop start pos rest.
Proof.
  revert pos; induction rest as [|c r IH]; intros pos; cbn [ld_string string_loop]; [reflexivity|].
  destruct (c =? 34)%N; [reflexivity|]. destruct (string_char c); [|reflexivity].
  rewrite forget_bind, IH. destruct (string_loop start (pos + 1) r) as [[[]]|]; reflexivity.
Qed.

Lemma forget_number pos c rest : lforget (ld_number U pos c rest) = lex_number U pos c rest.
Proof.
  unfold ld_number, lex_number. rewrite forget_bind, forget_num.
  destruct (num_loop U false (pos + 1) rest) as [[[[f cs] p] r]|]; [|reflexivity]. cbn [bind].
  destruct f; [destruct (py_float U (c :: cs))|destruct (py_int U (c :: cs))]; reflexivity.
Qed.

Lemma forget_word pos c rest : lforget (ld_word U pos c rest) = lex_word U pos c rest.
Proof.
  unfold ld_word, lex_word. destruct (span_id U (pos + 1) rest) as [[s p] r]. cbv zeta.
  destruct (match r with d :: _ => (d =? 46)%N | [] => false end).
  - destruct (tl r) as [|d r2]; [reflexivity|]. destruct (idchar U d); [|reflexivity].
    destruct (span_id U (p + 2) r2) as [[s2 p2] r3]. destruct (att_prefix _); reflexivity.
  - repeat match goal with |- lforget (if ?b then _ else _) = _ => destruct b; [reflexivity|] end. reflexivity.
Qed.

Lemma forget_char pos c rest : lforget (ld_char U pos c rest) = lex_char U pos c rest.
Proof.
  unfold ld_char, lex_char.
  repeat match goal with |- lforget (if (c =? ?k)%N then LOk _ else _) = _ => destruct (c =? k)%N; [reflexivity|] end.
  destruct (c =? 62)%N; [destruct (head_is 61 rest); reflexivity|].
  destruct (c =? 60)%N; [destruct (head_is 61 rest); reflexivity|].
  destruct (c =? 33)%N; [destruct (head_is 61 rest); reflexivity|].
  destruct (c =? 34)%N.
  { rewrite forget_bind, forget_string. destruct (string_loop pos (pos + 1) rest) as [[[]]|]; reflexivity. }
  destruct (isdigit U c || _); [apply forget_number|]. destruct (isalpha U c); [apply forget_word|reflexivity].
Qed.

Lemma forget_next l :
  lex_next U l = match ld_next U l with
                 | (Gave t, l') => Ok (t, l')
                 | (Raised x, _) => Err (plain x)
                 end.
Proof.
  unfold lex_next, ld_next. destruct (skip_ws U (lx_pos l) (lx_rest l)) as [p [|c r]].
  - destruct (last_type (lx_toks l)) as [[]|]; reflexivity.
  - rewrite <- forget_char. destruct (ld_char U p c r) as [[[]]|]; reflexivity.
Qed.

Lemma forget_loop fuel l :
  tokenize_loop U fuel l = match ld_loop U fuel l with
                           | (None, l') => Ok l'
                           | (Some x, _) => Err (plain x)
                           end.
Proof.
  revert l; induction fuel as [|f IH]; intros l; cbn [tokenize_loop ld_loop]; [reflexivity|].
  rewrite forget_next. destruct (ld_next U l) as [[[t|]|x] l']; cbn [bind]; auto.
Qed.

(** ** Numbers *)

Lemma digits_split rest : exists ds r, rest = ds ++ r /\ Forall digit ds /\ not_starts (isdigit U) r.
Proof.
  induction rest as [|c rest (ds & r & -> & Hd & Hn)]; [exists [], []; cbn; auto|].
  destruct (isdigit U c) eqn:E; [exists (c :: ds), r; repeat split; auto|exists [], (c :: ds ++ r); cbn; auto].
Qed.

Lemma ld_num_run isf start pos cur ds r :
  Forall digit ds ->
  ld_num U isf start pos cur (ds ++ r) =
  match ld_num U isf start (pos + len ds) (List.last ds cur) r with
  | LOk (f, cs, p, r') => LOk (f, ds ++ cs, p, r')
  | LRaise x p r' => LRaise x p r'
  end.
Proof.
  intros Hd; revert pos cur; induction Hd as [|c ds Hc Hd IH]; intros pos cur.
  - cbn [app]. rewrite len_nil, Z.add_0_r. cbn [List.last]. destruct (ld_num U isf start pos cur r) as [[[[]]]|]; reflexivity.
  - cbn [app ld_num]. rewrite Hc, IH, len_cons, Z.add_assoc.
    rewrite last_cons.
    destruct (ld_num U isf start (pos + 1 + len ds) (List.last ds c) r) as [[[[]]]|]; reflexivity.
Qed.

(** The reading of a number in the four ways it can end. *)
Lemma ld_num_stop isf start pos cur r :
  not_starts (dot_or_digit U) r -> ld_num U isf start pos cur r = LOk (isf, [], pos, r).
Proof.
  destruct r as [|c r]; [reflexivity|]. cbn. unfold dot_or_digit. intros H. apply orb_false_iff in H as [-> ->]. reflexivity.
Qed.
Lemma ld_num_dot start pos cur r :
  not_starts (isdigit U) r ->
  ld_num U false start pos cur (46%N :: r) =
  LRaise (RSyn (LErr (dot_msg r) (pos + 1) (Some (Tok FLOAT start TNone)))) pos (46%N :: r).
Proof.
  intros H. cbn [ld_num]. rewrite digit_not_dot. change (46 =? 46)%N with true. cbv iota.
  destruct r as [|d r]; [reflexivity|]. cbn in H. now rewrite H.
Qed.
Lemma ld_num_dots start pos cur r :
  ld_num U true start pos cur (46%N :: r) =
  LRaise (RSyn (LErr dots_msg pos (Some (Tok FLOAT start TNone)))) (pos - 1) (cur :: 46%N :: r).
Proof. cbn [ld_num]. rewrite digit_not_dot. reflexivity. Qed.
Lemma ld_num_frac start pos cur es r :
  Forall digit es -> es <> [] ->
  ld_num U false start pos cur (46%N :: es ++ r) =
  match ld_num U true start (pos + 1 + len es) (List.last es 46%N) r with
  | LOk (f, cs, p, r') => LOk (f, 46%N :: es ++ cs, p, r')
  | LRaise x p r' => LRaise x p r'
  end.
Proof.
  intros He Hne. cbn [ld_num]. rewrite digit_not_dot. change (46 =? 46)%N with true. cbv iota.
  rewrite (ld_num_run true start (pos + 1) 46 es r He). destruct es as [|e es]; [congruence|].
  cbn [app]. inversion He as [|? ? He1 _]. unfold LexSpec.digit in He1. rewrite He1.
  destruct (ld_num U true start _ _ r) as [[[[]]]|]; reflexivity.
Qed.

(** A number begins with [c :: rest]. *)
Definition num_start (c : N) (rest : str) : Prop :=
  isdigit U c = true \/ (c = 45%N /\ exists d rest', rest = d :: rest' /\ isdigit U d = true).

(** The digits of a number behind its sign, followed by no digit. *)
Lemma number_shape c rest :
  num_start c rest ->
  exists neg ds r, c :: rest = sign_of neg ++ ds ++ r /\ ds <> [] /\ Forall digit ds /\ not_starts (isdigit U) r /\
    exists ds', rest = ds' ++ r /\ Forall digit ds' /\ c :: ds' = sign_of neg ++ ds /\
    strip_sign (c :: ds') = (neg, ds) /\
    forall x, strip_sign (c :: ds' ++ x) = (neg, ds ++ x).
Proof.
  intros H. destruct (digits_split rest) as (ds & r & -> & Hd & Hn).
  assert (E45 : isdigit U c = true -> (c =? 45)%N = false).
  { intros Hc. apply N.eqb_neq. intros ->. now rewrite digit_not_minus in Hc. }
  destruct H as [Hc|(-> & d & rest' & E & Hx)].
  - exists false, (c :: ds), r. repeat split; auto; [discriminate|].
    exists ds. cbn. rewrite (E45 Hc). repeat split; auto.
  - exists true, ds, r. repeat split; auto.
    + intros ->. cbn in E. subst r. cbn in Hn. congruence.
    + exists ds. repeat split; auto.
Qed.

Lemma number_cases r : not_starts (isdigit U) r ->
  not_starts (dot_or_digit U) r \/
  (exists r', r = 46%N :: r' /\ not_starts (isdigit U) r') \/
  (exists es r', r = 46%N :: es ++ r' /\ Forall digit es /\ es <> [] /\ not_starts (isdigit U) r').
Proof.
  destruct r as [|c r]; [cbn; auto|]. cbn [not_starts]. intros H. destruct (N.eqb_spec c 46) as [->|Hc].
  2:{ left. cbn. unfold dot_or_digit. rewrite H. now apply N.eqb_neq. }
  right. destruct (digits_split r) as (es & r' & -> & He & Hn). destruct es as [|e es]; [left; eauto|right].
  exists (e :: es), r'. repeat split; auto. discriminate.
Qed.

Lemma no_decval ds : digits_val U 0 ds = None <-> forall n, ~ decval U ds n.
Proof.
  split.
  - intros H n D. apply digits_val_decval in D. congruence.
  - intros H. destruct (digits_val U 0 ds) as [n|] eqn:E; auto. apply digits_val_decval in E. now apply H in E.
Qed.

Definition raise_fault (p : Z) (text : str) (x : raised) (q : Z) (r : str) : Prop :=
  exists pre, text = pre ++ r /\ q = p + len pre /\
  match x with
  | RSyn e => exists t, fault U p text (le_msg e) (le_pos e) t r /\ le_tok e = blamed p t
  | RExc y => crash U text y r
  end.

Lemma shown_char r : shown_as r (char_text r).
Proof. destruct r; [right; auto|left; eauto]. Qed.

Lemma snoc_of (ds : str) : ds <> [] -> exists w d, ds = w ++ [d].
Proof. intros H. destruct (exists_last H) as (w & d & ->). eauto. Qed.

Lemma last_nonempty (ds : str) (a b : N) : ds <> [] -> List.last ds a = List.last ds b.
Proof. intros H. destruct (snoc_of ds H) as (w & d & ->). now rewrite !last_snoc. Qed.

Lemma number_raise p c rest x q r :
  num_start c rest -> ld_number U p c rest = LRaise x q r -> raise_fault p (c :: rest) x q r.
Proof.
  intros Hs. destruct (number_shape c rest Hs) as (neg & ds & r0 & Et & Hne & Hd & Hn & ds' & -> & Hd' & Ec & Es & Ex).
  unfold ld_number. rewrite ld_num_run by auto.
  assert (El : forall b, List.last ds' c = List.last ds b).
  { intros b. destruct (last_snoc_cons c ds') as (w & E). rewrite E in Ec.
    destruct (snoc_of ds Hne) as (w2 & d & ->). rewrite app_assoc in Ec. apply app_inj_tail in Ec as [_ ->]. now rewrite last_snoc. }
  assert (Lc : len ds' + 1 = len (sign_of neg ++ ds)) by (rewrite <- Ec, len_cons; lia).
  destruct (number_cases r0 Hn) as [Hstop|[(r1 & -> & Hn1)|(es & r1 & -> & He & Hnes & Hn1)]].
  - rewrite ld_num_stop by auto. cbn [lbind]. rewrite app_nil_r. unfold py_int. rewrite Es.
    destruct (digits_val U 0 ds) as [n|] eqn:Ev; cbn [at_last lbind]; [discriminate|]. intros [= <- <- <-].
    destruct (snoc_of ds Hne) as (w & d & ->). rewrite (El 0%N), last_snoc.
    exists (sign_of neg ++ w). rewrite Et, <- !app_assoc. cbn [app]. split; [reflexivity|]. split.
    + rewrite app_assoc, len_app, len_cons, len_nil in Lc. lia.
    + apply cr_int; auto. now apply no_decval.
  - rewrite ld_num_dot by auto. cbn [lbind]. intros [= <- <- <-].
    exists (sign_of neg ++ ds). rewrite Et, <- app_assoc. split; [reflexivity|]. split; [lia|].
    cbn [le_msg le_pos le_tok]. exists (Some (FLOAT, TNone)). split; [|reflexivity].
    replace (p + 1 + len ds' + 1) with (p + len (sign_of neg ++ ds) + 1) by lia.
    apply fl_point; auto. apply shown_char.
  - destruct (snoc_of es Hnes) as (w & d & ->). rewrite ld_num_frac by auto. rewrite last_snoc.
    rewrite len_app, len_cons, len_nil.
    destruct (number_cases r1 Hn1) as [Hstop|H1].
    + rewrite ld_num_stop by auto. cbn [lbind]. rewrite app_nil_r. unfold py_float. rewrite Ex.
      rewrite (split_dot_run U) by auto.
      destruct (digits_val U 0 (ds ++ w ++ [d])) as [n|] eqn:Ev; cbn [at_last lbind]; [discriminate|]. intros [= <- <- <-].
      replace (List.last (ds' ++ 46%N :: w ++ [d]) c) with d by (change (46%N :: w ++ [d]) with ((46%N :: w) ++ [d]); now rewrite app_assoc, last_snoc).
      exists (sign_of neg ++ ds ++ 46%N :: w). rewrite Et, <- ?app_assoc. cbn [app]. rewrite <- ?app_assoc. cbn [app]. split; [reflexivity|]. split.
      * rewrite (app_assoc (sign_of neg)), len_app, len_cons. lia.
      * apply cr_float; auto. now apply no_decval.
    + assert (exists r2, r1 = 46%N :: r2) as (r2 & ->) by (destruct H1 as [(a & -> & _)|(a & b & -> & _)]; eauto).
      rewrite ld_num_dots. cbn [lbind]. intros [= <- <- <-].
      exists (sign_of neg ++ ds ++ 46%N :: w). rewrite Et, <- ?app_assoc. cbn [app]. rewrite <- ?app_assoc. cbn [app]. split; [reflexivity|]. split.
      * rewrite (app_assoc (sign_of neg)), len_app, len_cons. lia.
      * cbn [le_msg le_pos le_tok]. exists (Some (FLOAT, TNone)). split; [|reflexivity].
        replace (p + 1 + len ds' + 1 + (len w + 1)) with (p + len (sign_of neg ++ ds ++ 46%N :: w ++ [d])).
        2:{ rewrite len_app in Lc. rewrite !len_app, !len_cons, len_app, len_cons, len_nil. lia. }
        cbn [app]. now apply fl_points.
Qed.

(** ** Strings *)

Lemma string_okb c : string_char c = true /\ c <> 34%N <-> string_ok c.
Proof. apply string_char_spec. Qed.

Lemma ld_string_run start pos body r :
  Forall string_ok body ->
  ld_string start pos (body ++ r) =
  match ld_string start (pos + len body) r with
  | LOk (s, p, r') => LOk (body ++ s, p, r')
  | LRaise x p r' => LRaise x p r'
  end.
Proof.
  intros Hb; revert pos; induction Hb as [|c body Hc Hb IH]; intros pos.
  - cbn [app]. rewrite len_nil, Z.add_0_r. destruct (ld_string start pos r) as [[[]]|]; reflexivity.
  - apply string_okb in Hc as [Hc Hq]. cbn [app ld_string]. apply N.eqb_neq in Hq. rewrite Hq, Hc, IH, len_cons, Z.add_assoc.
    destruct (ld_string start (pos + 1 + len body) r) as [[[]]|]; reflexivity.
Qed.

Lemma string_cases rest : exists body r, rest = body ++ r /\ Forall string_ok body /\
  (r = [] \/ exists c r', r = c :: r' /\ (c = 34%N \/ c <> 34%N /\ string_char c = false)).
Proof.
  induction rest as [|c rest (body & r & -> & Hb & H)]; [exists [], []; auto|].
  destruct (N.eq_dec c 34) as [->|Hc]; [exists [], (34%N :: body ++ r); repeat split; auto; right; eauto 6|].
  destruct (string_char c) eqn:E; [exists (c :: body), r|exists [], (c :: body ++ r); repeat split; auto; right; exists c, (body ++ r); auto].
  repeat split; auto. constructor; auto. now apply string_okb.
Qed.

Lemma string_raise p rest x q r :
  ld_string p (p + 1) rest = LRaise x q r -> raise_fault p (34%N :: rest) x q r.
Proof.
  destruct (string_cases rest) as (body & r0 & -> & Hb & H). rewrite ld_string_run by auto.
  destruct H as [->|(c & r' & -> & [->|[Hq Hc]])]; cbn [ld_string].
  - intros H. apply raise_inj in H as (-> & -> & ->). exists (34%N :: body). rewrite !app_nil_r. split; [reflexivity|]. split; [rewrite len_cons; lia|].
    exists (Some (STRING, TNone)). split; [|reflexivity]. now apply fl_open.
  - discriminate.
  - apply N.eqb_neq in Hq as Hq'. rewrite Hq', Hc. intros H. apply raise_inj in H as (-> & -> & ->). exists (34%N :: body).
    split; [reflexivity|]. split; [rewrite len_cons; lia|]. exists (Some (STRING, TNone)). split; [|reflexivity].
    cbn [le_pos le_msg]. replace (p + 1 + len body) with (p + len (34%N :: body)) by (rewrite len_cons; lia).
    apply fl_char; auto. intros B. apply string_okb in B as [B _]. congruence.
Qed.

(** ** Words *)

Definition is_keyword (lw : str) : bool :=
  str_eqb lw (lit "in") || str_eqb lw (lit "subset") || str_eqb lw (lit "and") || str_eqb lw (lit "or")
  || str_eqb lw (lit "true") || str_eqb lw (lit "false") || str_eqb lw (lit "undef") || str_eqb lw (lit "not") || str_eqb lw (lit "null").

Lemma is_keyword_spec lw : is_keyword lw = true <-> exists ty v, keyword lw ty v.
Proof.
  unfold is_keyword. rewrite !orb_true_iff, !str_eqb_eq. split.
  - intros H. decompose [or] H; subst; do 2 eexists; constructor.
  - intros (ty & v & K). destruct K; tauto.
Qed.

Definition unknown_word (p : Z) (c : N) (s r : str) : lres (token * Z * str) :=
  LRaise (RSyn (LErr (lit "Syntax error, encountered an unknown identifier, '" ++ (c :: s) ++ lit "'.")
                     p (Some (Tok UNK_ID p (TStr (c :: s)))))) (p + 1 + len s - 1) (List.last s c :: r).

Lemma ld_word_plain p c s r :
  Forall id_char s -> not_starts (dot_or_id U) r ->
  if is_keyword (py_lower U (c :: s)) then exists a, ld_word U p c (s ++ r) = LOk a
  else ld_word U p c (s ++ r) = unknown_word p c s r.
Proof.
  intros Hs Hn. unfold ld_word. rewrite span_id_run; auto.
  2:{ eapply not_starts_weaken; [|exact Hn]. unfold dot_or_id. intros y ->. reflexivity. }
  replace (match r with d :: _ => (d =? 46)%N | [] => false end) with false.
  2:{ destruct r; auto. cbn in Hn. unfold dot_or_id in Hn. apply orb_false_iff in Hn as [_ ->]. auto. }
  cbv zeta. unfold is_keyword. set (lw := py_lower U (c :: s)).
  destruct (str_eqb lw (lit "in")), (str_eqb lw (lit "subset")); cbn [orb]; eauto;
  destruct (str_eqb lw (lit "and")), (str_eqb lw (lit "or")); cbn [orb]; eauto;
  destruct (str_eqb lw (lit "true")), (str_eqb lw (lit "false")), (str_eqb lw (lit "undef")); cbn [orb]; eauto;
  destruct (str_eqb lw (lit "not")); cbn [orb]; eauto.
  destruct (str_eqb lw (lit "null")); cbn [orb]; eauto.
Qed.

Definition bad_category (p : Z) (c : N) (w : str) (id : str) (d : N) (r : str) : lres (token * Z * str) :=
  LRaise (RSyn (LErr (lit "Syntax error encountered while reading attribute name. '" ++ (c :: w) ++ lit "' is not a valid attribute type.")
                     p (Some (Tok UNK_ATT p (TStr (py_lower U (c :: w))))))) (p + len (c :: w) + 1 + len id) (d :: r).

Lemma ld_word_att p c w id d r :
  Forall id_char w -> Forall id_char (id ++ [d]) -> not_starts (id_charb U) r ->
  match att_prefix (py_lower U (c :: w)) with
  | Some ty => exists a, ld_word U p c (w ++ 46%N :: id ++ d :: r) = LOk a
  | None => ld_word U p c (w ++ 46%N :: id ++ d :: r) = bad_category p c w id d r
  end.
Proof.
  intros Hw Hi Hn. unfold ld_word. rewrite span_id_run; auto; [|reflexivity]. cbv zeta. cbn [tl N.eqb Pos.eqb].
  destruct id as [|e id]; cbn [app] in *.
  - inversion Hi as [|? ? Hd _]; subst. rewrite idchar_charb. apply id_char_b in Hd as ->.
    pose proof (span_id_run U (p + 1 + len w + 2) [] r (Forall_nil _) Hn) as E. cbn [app] in E. rewrite E.
    destruct (att_prefix (py_lower U (c :: w))); eauto. unfold bad_category. cbn [List.last].
    rewrite !len_nil, len_cons. f_equal. lia.
  - inversion Hi as [|? ? He Hi']; subst. rewrite idchar_charb. apply id_char_b in He as ->.
    pose proof (span_id_run U (p + 1 + len w + 2) (id ++ [d]) r Hi' Hn) as E. rewrite <- app_assoc in E. cbn [app] in E. rewrite E.
    destruct (att_prefix (py_lower U (c :: w))); eauto. unfold bad_category. rewrite last_snoc.
    rewrite len_app, !len_cons, len_nil. f_equal. lia.
Qed.

Lemma ld_word_noname p c w d r :
  Forall id_char w -> ~ id_char d ->
  ld_word U p c (w ++ 46%N :: d :: r) =
  LRaise (RSyn (LErr (lit "Syntax error encountered while reading attribute name. '.' needs to be followed by an identifier and not '" ++ [d] ++ lit "'.")
                     (p + len (c :: w) + 1) (Some (Tok UNK_ATT p (TStr (py_lower U (c :: w))))))) (p + len (c :: w) + 1) (d :: r).
Proof.
  intros Hw Hd. unfold ld_word. rewrite span_id_run; auto; [|reflexivity]. cbv zeta. cbn [tl N.eqb Pos.eqb].
  rewrite idchar_charb. destruct (id_charb U d) eqn:E; [now apply id_char_b in E|].
  rewrite len_cons, Z.add_assoc. reflexivity.
Qed.

Lemma ld_word_end p c w :
  Forall id_char w -> ld_word U p c (w ++ [46%N]) = LRaise (RExc EAttribute) (p + len (c :: w) + 1) [].
Proof.
  intros Hw. unfold ld_word. rewrite span_id_run; auto; [|reflexivity]. cbv zeta. cbn [tl N.eqb Pos.eqb].
  rewrite len_cons, Z.add_assoc. reflexivity.
Qed.

Lemma ids_split rest : exists w r, rest = w ++ r /\ Forall id_char w /\ not_starts (id_charb U) r.
Proof.
  destruct (span_id U 0 rest) as [[w q] r] eqn:E. apply span_id_ok in E as (-> & _ & Hw & Hn). eauto.
Qed.

Lemma word_cases rest : exists w r, rest = w ++ r /\ Forall id_char w /\
  (not_starts (dot_or_id U) r \/ r = [46%N] \/
   (exists d r', r = 46%N :: d :: r' /\ ~ id_char d) \/
   (exists id d r', r = 46%N :: id ++ d :: r' /\ Forall id_char (id ++ [d]) /\ not_starts (id_charb U) r')).
Proof.
  destruct (ids_split rest) as (w & r & -> & Hw & Hn). exists w, r. repeat split; auto.
  destruct r as [|c r]; [cbn; auto|]. destruct (N.eqb_spec c 46) as [->|Hc].
  2:{ left. cbn in *. unfold dot_or_id. rewrite Hn. now apply N.eqb_neq. }
  right. destruct (ids_split r) as (id & r' & -> & Hi & Hn'). destruct (nil_or_snoc id) as [->|(a & d & ->)].
  - destruct r' as [|d r']; [auto|]. right; left. exists d, r'. split; auto. intros B. apply id_char_b in B. cbn in Hn'. congruence.
  - right; right. exists a, d, r'. rewrite <- app_assoc. auto.
Qed.

Lemma word_raise p c rest x q r :
  isalpha U c = true -> ld_word U p c rest = LRaise x q r -> raise_fault p (c :: rest) x q r.
Proof.
  intros Hc. destruct (word_cases rest) as (w & r0 & -> & Hw & [Hn|[->|[(d & r' & -> & Hd)|(id & d & r' & -> & Hi & Hn)]]]).
  - pose proof (ld_word_plain p c w r0 Hw Hn) as E. destruct (is_keyword (py_lower U (c :: w))) eqn:K.
    { destruct E as (a & ->). discriminate. }
    rewrite E. unfold unknown_word. intros H. apply raise_inj in H as (-> & -> & ->). destruct (last_snoc_cons c w) as (v & Ev). set (d := List.last w c) in *.
    exists v. split; [change (c :: w ++ r0) with ((c :: w) ++ r0); now rewrite Ev, <- app_assoc|].
    split; [apply (f_equal len) in Ev; rewrite len_cons, len_app, len_cons, len_nil in Ev; lia|].
    exists (Some (UNK_ID, TStr (c :: w))). split; [|reflexivity]. cbn [le_msg le_pos].
    change (c :: w ++ r0) with ((c :: w) ++ r0). rewrite !Ev, <- app_assoc. apply fl_word; auto.
    + exists c, w. auto.
    + intros ty' v' B. rewrite <- Ev in B. assert (is_keyword (py_lower U (c :: w)) = true) by (apply is_keyword_spec; eauto). congruence.
  - rewrite ld_word_end by auto. intros H. apply raise_inj in H as (-> & -> & ->). exists (c :: w ++ [46%N]). rewrite app_nil_r. split; [reflexivity|].
    split; [rewrite !len_cons, len_app, len_cons, len_nil; lia|]. now apply (cr_end U c w).
  - rewrite ld_word_noname by auto. intros H. apply raise_inj in H as (-> & -> & ->). exists (c :: w ++ [46%N]). cbn [app]. rewrite <- app_assoc. split; [reflexivity|].
    split; [rewrite !len_cons, len_app, len_cons, len_nil; lia|]. exists (Some (UNK_ATT, TStr (py_lower U (c :: w)))). split; [|reflexivity].
    now apply (fl_name U p c w d r').
  - pose proof (ld_word_att p c w id d r' Hw Hi Hn) as E. destruct (att_prefix (py_lower U (c :: w))) as [ty|] eqn:A.
    { destruct E as (a & ->). discriminate. }
    rewrite E. unfold bad_category. intros H. apply raise_inj in H as (-> & -> & ->). exists (c :: w ++ 46%N :: id). cbn [app]. rewrite <- app_assoc. split; [reflexivity|].
    split; [rewrite !len_cons, len_app, len_cons; lia|]. exists (Some (UNK_ATT, TStr (py_lower U (c :: w)))). split; [|reflexivity].
    apply (fl_category U p c w id d r'); auto. intros ty B. apply att_prefix_spec in B. congruence.
Qed.

(** ** All characters *)

Lemma ld_char_plain pos c rest :
  special c = false ->
  ld_char U pos c rest =
  if isdigit U c ||
     ((c =? 45)%N && match rest with d :: _ => isdigit U d | [] => false end)
  then ld_number U pos c rest
  else if isalpha U c then ld_word U pos c rest
  else LRaise (RSyn (LErr (lit "Syntax error, encountered an unexpected character, '" ++ [c] ++ lit "'.") pos None)) pos (c :: rest).
Proof.
  unfold special, ld_char. cbn [existsb]. rewrite !orb_false_iff.
  intros (-> & -> & -> & -> & -> & -> & -> & -> & -> & -> & _). reflexivity.
Qed.

Lemma num_startb c rest :
  isdigit U c || ((c =? 45)%N && match rest with d :: _ => isdigit U d | [] => false end) = true <-> num_start c rest.
Proof.
  unfold num_start. rewrite orb_true_iff, andb_true_iff, N.eqb_eq. destruct rest as [|d rest].
  - split; [intros [H|[_ H]]; [auto|discriminate]|intros [H|(_ & d & r & H & _)]; [auto|discriminate]].
  - split; (intros [H|[H1 H2]]; [auto|right; split; auto]); [eauto|]. destruct H2 as (d' & r & [= <- <-] & H); auto.
Qed.

Lemma special_in c : special c = true <-> In c [123; 125; 44; 40; 41; 61; 62; 60; 33; 34]%N.
Proof.
  unfold special. rewrite existsb_exists. split; [intros (x & H & E); apply N.eqb_eq in E as ->; auto|].
  intros H. exists c. split; auto. apply N.eqb_refl.
Qed.

Lemma char_raise p c rest x q r :
  isspace U c = false -> ld_char U p c rest = LRaise x q r -> raise_fault p (c :: rest) x q r.
Proof.
  intros Hsp. destruct (special c) eqn:S.
  - apply special_in in S. cbn [In] in S.
    destruct S as [<-|[<-|[<-|[<-|[<-|[<-|[<-|[<-|[<-|[<-|[]]]]]]]]]]]; try discriminate; unfold ld_char; cbn [N.eqb Pos.eqb].
    + destruct (head_is 61 rest); discriminate.
    + destruct (head_is 61 rest); discriminate.
    + destruct (head_is 61 rest) eqn:E; [discriminate|]. intros H. apply raise_inj in H as (-> & -> & ->). exists []. split; [reflexivity|].
      split; [rewrite len_nil; lia|]. exists (Some (OP, TStr (lit "!="))). split; [|reflexivity].
      apply fl_bang. destruct rest as [|n rest]; [exact I|]. unfold not_starts. rewrite N.eqb_sym. exact E.
    + destruct (ld_string p (p + 1) rest) as [[[s' p'] r']|x' q' r'] eqn:E; cbn [lbind]; [discriminate|].
      intros H. apply raise_inj in H as (-> & -> & ->). now apply string_raise.
  - rewrite ld_char_plain by auto. destruct (isdigit U c || _) eqn:D.
    { apply num_startb in D. now apply number_raise. }
    destruct (isalpha U c) eqn:A; [now apply word_raise|]. intros H. apply raise_inj in H as (-> & -> & ->). exists []. split; [reflexivity|].
    split; [rewrite len_nil; lia|]. exists None. split; [|reflexivity]. apply fl_other.
    assert (N : ~ num_start c rest) by (rewrite <- num_startb, D; discriminate).
    unfold no_start, space, LexSpec.digit, letter. rewrite Hsp, A. repeat split; try discriminate.
    + intros B. apply N. now left.
    + rewrite <- special_in, S. discriminate.
    + intros ->. destruct rest as [|d rest]; cbn; auto.
Qed.

End WithUnicode.
