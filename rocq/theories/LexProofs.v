(** * LexProofs: the lexer implements [LexSpec] *)

From Coq Require Import NArith ZArith List Bool String Lia.
From Verif Require Import PyBase PyNum FloatSpec FloatLit Lexer LexSpec.
Import ListNotations.
Open Scope Z_scope.

Lemma bind_ok {A B} (m : res A) (f : A -> res B) b :
  bind m f = Ok b -> exists a, m = Ok a /\ f a = Ok b.
Proof. destruct m; cbn; [eauto | discriminate]. Qed.

Lemma leqb_spec {A} (e : A -> A -> bool) (He : forall x y, e x y = true <-> x = y) :
  forall a b, leqb e a b = true <-> a = b.
Proof.
  induction a; destruct b; cbn; try (split; congruence).
  rewrite andb_true_iff, He, IHa. split; [intros [-> ->] | intros [= -> ->]]; auto.
Qed.

Lemma str_eqb_eq a b : str_eqb a b = true <-> a = b.
Proof. apply leqb_spec. intros; apply N.eqb_eq. Qed.

Lemma str_eqb_refl a : str_eqb a a = true.
Proof. apply str_eqb_eq; reflexivity. Qed.

Lemma len_app a b : len (a ++ b) = len a + len b.
Proof. unfold len. rewrite app_length. lia. Qed.
Lemma len_cons c a : len (c :: a) = 1 + len a.
Proof. unfold len. cbn [List.length]. lia. Qed.
Lemma len_nil : len [] = 0.
Proof. reflexivity. Qed.
Lemma len_nonneg a : 0 <= len a.
Proof. unfold len; lia. Qed.

Section WithUnicode.
Variable U : unicode.
Notation decval := (decval U).
Notation digit := (digit U).
Notation id_char := (id_char U).
Notation lexeme := (lexeme U).
Notation tiles := (tiles U).

Lemma skip_ws_ok pos rest p r :
  skip_ws U pos rest = (p, r) ->
  exists ws, rest = ws ++ r /\ Forall (space U) ws /\ p = pos + len ws /\
             not_starts (isspace U) r.
Proof.
  revert pos; induction rest as [|c rest IH]; intros pos; cbn [skip_ws].
  - intros [= <- <-]. exists []. rewrite len_nil. cbn. repeat split; auto; lia.
  - destruct (isspace U c) eqn:E.
    + intros H. apply IH in H as (ws & -> & Hf & -> & Hn).
      exists (c :: ws). rewrite len_cons. repeat split; auto; try lia.
    + intros [= <- <-]. exists []. rewrite len_nil. cbn. repeat split; auto; lia.
Qed.

Lemma skip_ws_run ws r pos :
  Forall (space U) ws -> not_starts (isspace U) r ->
  skip_ws U pos (ws ++ r) = (pos + len ws, r).
Proof.
  intros Hf Hn. revert pos; induction Hf as [|c ws Hc Hf IH]; intros pos.
  - cbn [app]. rewrite len_nil, Z.add_0_r. destruct r; cbn [skip_ws]; auto.
    cbn in Hn. now rewrite Hn.
  - cbn [app skip_ws]. rewrite Hc, IH, len_cons. f_equal; lia.
Qed.

(** ** Numbers *)

Lemma digit_not_dot : isdigit U 46 = false.
Proof. reflexivity. Qed.
Lemma digit_not_minus : isdigit U 45 = false.
Proof. reflexivity. Qed.

Lemma num_loop_true pos rest f cs p r :
  num_loop U true pos rest = Ok (f, cs, p, r) ->
  rest = cs ++ r /\ p = pos + len cs /\ f = true /\ Forall digit cs /\
  not_starts (dot_or_digit U) r.
Proof.
  revert pos f cs p r; induction rest as [|c rest IH]; intros pos f cs p r; cbn [num_loop].
  - intros [= <- <- <- <-]. rewrite len_nil. cbn. repeat split; auto; lia.
  - destruct (isdigit U c) eqn:E.
    + intros H. apply bind_ok in H as ([[[f' cs'] p'] r'] & H & [= <- <- <- <-]).
      apply IH in H as (-> & -> & -> & Hf & Hn). rewrite len_cons.
      repeat split; auto; lia.
    + destruct (N.eqb_spec c 46); [discriminate|].
      intros [= <- <- <- <-]. rewrite len_nil. cbn. unfold dot_or_digit. rewrite E.
      repeat split; auto; try lia. now apply N.eqb_neq.
Qed.

Lemma num_loop_false pos rest f cs p r :
  num_loop U false pos rest = Ok (f, cs, p, r) ->
  rest = cs ++ r /\ p = pos + len cs /\ not_starts (dot_or_digit U) r /\
  ((f = false /\ Forall digit cs) \/
   (f = true /\ exists ds es, cs = ds ++ 46%N :: es /\ Forall digit ds /\
                              Forall digit es /\ es <> [])).
Proof.
  revert pos f cs p r; induction rest as [|c rest IH]; intros pos f cs p r; cbn [num_loop].
  - intros [= <- <- <- <-]. rewrite len_nil. cbn. repeat split; auto; lia.
  - destruct (isdigit U c) eqn:E.
    + intros H. apply bind_ok in H as ([[[f' cs'] p'] r'] & H & [= <- <- <- <-]).
      apply IH in H as (-> & -> & Hn & Hc). rewrite len_cons.
      repeat split; auto; try lia.
      destruct Hc as [[-> Hf] | (-> & ds & es & -> & Hd & He & Hne)]; [left; auto|right].
      split; auto. exists (c :: ds), es. repeat split; auto.
    + destruct (N.eqb_spec c 46) as [->|Hc].
      * destruct rest as [|d rest']; [discriminate|].
        destruct (isdigit U d) eqn:Ed; [|discriminate].
        intros H. apply bind_ok in H as ([[[f' cs'] p'] r'] & H & [= <- <- <- <-]).
        apply num_loop_true in H as (Hr & -> & -> & Hf & Hn). rewrite len_cons.
        repeat split; auto; try lia.
        { cbn. now rewrite Hr. }
        right. split; auto. exists [], cs'. cbn. repeat split; auto.
        intros ->. cbn in Hr. subst r'. cbn in Hn. unfold dot_or_digit in Hn.
        rewrite Ed in Hn. discriminate.
      * intros [= <- <- <- <-]. rewrite len_nil. cbn. unfold dot_or_digit. rewrite E.
        repeat split; auto; try lia. now apply N.eqb_neq.
Qed.

Lemma num_loop_run isf pos cs r :
  Forall digit cs -> not_starts (dot_or_digit U) r ->
  num_loop U isf pos (cs ++ r) = Ok (isf, cs, pos + len cs, r).
Proof.
  intros Hf Hn. revert pos; induction Hf as [|c cs Hc Hf IH]; intros pos.
  - cbn [app]. rewrite len_nil, Z.add_0_r. destruct r as [|d r]; cbn [num_loop]; auto.
    cbn in Hn. unfold dot_or_digit in Hn. apply orb_false_iff in Hn as [-> ->]. auto.
  - cbn [app num_loop]. rewrite Hc, IH. cbn [bind]. rewrite len_cons. do 2 f_equal. f_equal. lia.
Qed.

Lemma num_loop_run_float pos ds es r :
  Forall digit ds -> Forall digit es -> es <> [] -> not_starts (dot_or_digit U) r ->
  num_loop U false pos ((ds ++ 46%N :: es) ++ r) =
  Ok (true, ds ++ 46%N :: es, pos + len (ds ++ 46%N :: es), r).
Proof.
  intros Hd He Hne Hn. revert pos; induction Hd as [|c ds Hc Hd IH]; intros pos.
  - cbn [app num_loop]. rewrite digit_not_dot.
    change (46 =? 46)%N with true. cbv iota.
    destruct es as [|d es]; [congruence|]. inversion He; subst.
    cbn [app]. replace (isdigit U d) with true by (symmetry; assumption).
    change (d :: es ++ r) with ((d :: es) ++ r). rewrite num_loop_run; auto.
    cbn [bind]. do 2 f_equal. f_equal. rewrite !len_cons. lia.
  - cbn [app num_loop]. rewrite Hc, IH. cbn [bind]. rewrite len_cons. do 2 f_equal. f_equal. lia.
Qed.

Lemma digits_val_app acc a b :
  digits_val U acc (a ++ b) =
  match digits_val U acc a with Some n => digits_val U n b | None => None end.
Proof.
  revert acc; induction a as [|c a IH]; intros acc; cbn [app digits_val]; auto.
  destruct (digit_val U c); auto.
Qed.

Lemma digits_val_decval ds n : digits_val U 0 ds = Some n <-> decval ds n.
Proof.
  split.
  - revert n. induction ds as [|c ds IH] using rev_ind; intros n.
    + cbn. intros [= <-]. constructor.
    + rewrite digits_val_app. destruct (digits_val U 0 ds); [|discriminate].
      cbn [digits_val]. destruct (digit_val U c) eqn:E; [|discriminate].
      intros [= <-]. constructor; auto.
  - induction 1; auto. rewrite digits_val_app, IHdecval. cbn [digits_val]. now rewrite H0.
Qed.

Lemma split_dot_run ds es :
  Forall digit ds -> split_dot (ds ++ 46%N :: es) = (ds, es).
Proof.
  induction 1 as [|c ds Hc Hf IH]; cbn [app split_dot]; auto.
  unfold LexSpec.digit in Hc.
  destruct (N.eqb_spec c 46) as [->|_]; [now rewrite digit_not_dot in Hc|].
  now rewrite IH.
Qed.

Lemma sign_case (c : N) cs :
  isdigit U c = true \/ c = 45%N /\ cs <> [] ->
  exists neg ds, c :: cs = sign_of neg ++ ds /\ ds <> [] /\
    strip_sign (c :: cs) = (neg, ds) /\
    (if neg then cs = ds else isdigit U c = true /\ ds = c :: cs).
Proof.
  intros [H | [-> H]].
  - exists false, (c :: cs). cbn. destruct (N.eqb_spec c 45) as [->|].
    + now rewrite digit_not_minus in H.
    + repeat split; auto. discriminate.
  - exists true, cs. cbn. auto.
Qed.

Lemma lex_number_ok pos c rest t p r :
  isdigit U c = true \/ (c = 45%N /\ exists d rest', rest = d :: rest' /\ isdigit U d = true) ->
  lex_number U pos c rest = Ok (t, p, r) ->
  exists s, c :: rest = s ++ r /\ p = pos + len s /\ t_pos t = pos /\
            lexeme s r (t_type t) (t_val t).
Proof.
  intros Hc. unfold lex_number. intros H.
  apply bind_ok in H as ([[[f cs] p'] r'] & Hl & H).
  apply num_loop_false in Hl as (Hrest & -> & Hn & Hcase).
  assert (Hcs : isdigit U c = true \/ c = 45%N /\ cs <> []).
  { destruct Hc as [?|(-> & d & rest' & -> & Hd)]; [auto|right; split; auto].
    intros ->. cbn in Hrest. subst r'. cbn in Hn. unfold dot_or_digit in Hn.
    now rewrite Hd in Hn. }
  destruct (sign_case c cs Hcs) as (neg & ds & Hs & Hne & Hm & Hneg).
  destruct Hcase as [[-> Hf] | (-> & es & fs & -> & He & Hfs & Hnf)].
  - cbv iota in H. unfold py_int in H.
    rewrite Hm in H. destruct (digits_val U 0 ds) as [n|] eqn:Ev; [|discriminate].
    cbn [bind] in H. injection H as <- <- <-. exists (c :: cs).
    rewrite len_cons. cbn [t_pos t_type t_val]. repeat split; auto; try lia.
    { cbn. now rewrite Hrest. }
    apply lx_int with (ds := ds); auto.
    + destruct neg; [now subst ds|destruct Hneg as [? ->]; constructor; auto].
    + now apply digits_val_decval.
  - cbv iota in H. unfold py_float in H.
    rewrite Hm in H.
    assert (Hds : exists ds', ds = ds' ++ 46%N :: fs /\ Forall digit ds' /\ ds' <> []).
    { destruct neg.
      - subst ds. exists es. repeat split; auto. intros ->.
        destruct Hc as [Hc|(-> & d & rest' & -> & Hd)].
        + cbn in Hs. injection Hs as -> . now rewrite digit_not_minus in Hc.
        + cbn in Hrest. injection Hrest as -> _. now rewrite digit_not_dot in Hd.
      - destruct Hneg as [Hd ->]. exists (c :: es). repeat split; auto. discriminate. }
    destruct Hds as (ds' & -> & Hd' & Hne').
    rewrite split_dot_run in H by auto.
    destruct (digits_val U 0 (ds' ++ fs)) as [n|] eqn:Ev; [|discriminate].
    cbn [bind] in H. injection H as <- <- <-. exists (c :: es ++ 46%N :: fs).
    rewrite len_cons. cbn [t_pos t_type t_val]. repeat split; auto; try lia.
    { cbn. now rewrite Hrest. }
    apply lx_float with (neg := neg) (ds := ds') (es := fs) (n := n); auto; [now apply digits_val_decval|now apply literal_rounds].
Qed.

(** ** Strings *)

Lemma string_char_spec c :
  string_char c = true /\ c <> 34%N <-> (32 <= c /\ c <= 126 /\ c <> 34)%N.
Proof.
  unfold string_char. rewrite !orb_true_iff, !andb_true_iff, !N.leb_le, !N.eqb_eq. lia.
Qed.

Lemma string_loop_ok start pos rest s p r :
  string_loop start pos rest = Ok (s, p, r) ->
  rest = s ++ 34%N :: r /\ p = pos + len s + 1 /\
  Forall (fun c => 32 <= c /\ c <= 126 /\ c <> 34)%N s.
Proof.
  revert pos s p r; induction rest as [|c rest IH]; intros pos s p r; cbn [string_loop];
    [discriminate|].
  destruct (N.eqb_spec c 34) as [->|Hc].
  - intros [= <- <- <-]. rewrite len_nil. repeat split; auto; lia.
  - destruct (string_char c) eqn:E; [|discriminate].
    intros H. apply bind_ok in H as ([[s' p'] r'] & H & [= <- <- <-]).
    apply IH in H as (-> & -> & Hf). rewrite len_cons.
    repeat split; auto; try lia. constructor; auto. now apply string_char_spec.
Qed.

Lemma string_loop_run start pos s r :
  Forall (fun c => 32 <= c /\ c <= 126 /\ c <> 34)%N s ->
  string_loop start pos (s ++ 34%N :: r) = Ok (s, pos + len s + 1, r).
Proof.
  intros Hf; revert pos; induction Hf as [|c s Hc Hf IH]; intros pos; cbn [app string_loop].
  - rewrite len_nil, Z.add_0_r. reflexivity.
  - destruct (proj2 (string_char_spec c) Hc) as [-> Hn].
    apply N.eqb_neq in Hn as ->. rewrite IH. cbn [bind]. rewrite len_cons.
    do 2 f_equal. f_equal. lia.
Qed.

(** ** Words *)

Lemma idchar_charb c : idchar U c = id_charb U c.
Proof. reflexivity. Qed.

Lemma id_char_b c : id_charb U c = true <-> id_char c.
Proof.
  unfold id_charb, LexSpec.id_char, letter, LexSpec.digit.
  rewrite !orb_true_iff, N.eqb_eq. tauto.
Qed.

Lemma span_id_ok pos rest s p r :
  span_id U pos rest = (s, p, r) ->
  rest = s ++ r /\ p = pos + len s /\ Forall id_char s /\ not_starts (id_charb U) r.
Proof.
  revert pos s p r; induction rest as [|c rest IH]; intros pos s p r; cbn [span_id].
  - intros [= <- <- <-]. rewrite len_nil. cbn. repeat split; auto; lia.
  - rewrite idchar_charb. destruct (id_charb U c) eqn:E.
    + destruct (span_id U (pos + 1) rest) as [[s' p'] r'] eqn:Es.
      intros [= <- <- <-]. apply IH in Es as (-> & -> & Hf & Hn).
      rewrite len_cons. repeat split; auto; try lia. constructor; auto. now apply id_char_b.
    + intros [= <- <- <-]. rewrite len_nil. cbn. repeat split; auto; lia.
Qed.

Lemma span_id_run pos s r :
  Forall id_char s -> not_starts (id_charb U) r ->
  span_id U pos (s ++ r) = (s, pos + len s, r).
Proof.
  intros Hf Hn; revert pos; induction Hf as [|c s Hc Hf IH]; intros pos; cbn [app span_id].
  - rewrite len_nil, Z.add_0_r. destruct r; cbn [span_id]; auto.
    rewrite idchar_charb. cbn in Hn. now rewrite Hn.
  - rewrite idchar_charb. apply id_char_b in Hc as ->. rewrite IH, len_cons.
    do 2 f_equal. lia.
Qed.

Lemma lower_up_c c : asc c = true -> upper_c c = upper_c (lower_c c).
Proof.
  unfold asc, upper_c, lower_c, up, low. intros H. apply N.ltb_lt in H.
  destruct (N.leb_spec 65 c), (N.leb_spec c 90); cbn [andb];
  destruct (N.leb_spec 97 c), (N.leb_spec c 122); cbn [andb]; try lia;
  try destruct (N.leb_spec 97 (c + 32)), (N.leb_spec (c + 32) 122); cbn [andb]; lia.
Qed.

Lemma map_upper_lower s :
  is_ascii s = true -> map upper_c s = map upper_c (map lower_c s).
Proof.
  induction s as [|c s IH]; cbn; auto. rewrite andb_true_iff. intros [Hc Hs].
  now rewrite IH, <- lower_up_c.
Qed.

Hypothesis uok : unicode_ok U.

Lemma keyword_upper s kw ty v :
  py_lower U s = kw -> keyword kw ty v -> py_upper U s = v.
Proof.
  unfold py_lower, py_upper. destruct (is_ascii s) eqn:E.
  - intros Hl Hk. rewrite map_upper_lower, Hl by auto. destruct Hk; reflexivity.
  - intros <- Hk. now apply (uok_keyword U uok) in Hk.
Qed.

Lemma att_prefix_spec w ty : att_prefix w = Some ty <-> category w ty.
Proof.
  unfold att_prefix. split.
  - repeat match goal with
    | |- (if str_eqb w ?l then _ else _) = _ -> _ =>
        let E := fresh in destruct (str_eqb w l) eqn:E;
        [apply str_eqb_eq in E; subst w; intros [= <-]; constructor|]
    end. discriminate.
  - destruct 1; reflexivity.
Qed.

Lemma not_starts_dot_or_id r :
  not_starts (id_charb U) r ->
  (match r with d :: _ => (d =? 46)%N | [] => false end) = false ->
  not_starts (dot_or_id U) r.
Proof.
  destruct r; cbn; auto. unfold dot_or_id. intros -> ->. reflexivity.
Qed.

Ltac kw := first [apply kw_in | apply kw_subset | apply kw_and | apply kw_or | apply kw_true
                 | apply kw_false | apply kw_undef | apply kw_not | apply kw_null].

Lemma lex_word_ok pos c rest t p r :
  isalpha U c = true ->
  lex_word U pos c rest = Ok (t, p, r) ->
  exists s, c :: rest = s ++ r /\ s <> [] /\ p = pos + len s /\ t_pos t = pos /\
            lexeme s r (t_type t) (t_val t).
Proof.
  intros Hc. unfold lex_word.
  destruct (span_id U (pos + 1) rest) as [[s p1] r1] eqn:Es.
  apply span_id_ok in Es as (-> & -> & Hf & Hn). cbv zeta.
  destruct (match r1 with d :: _ => (d =? 46)%N | [] => false end) eqn:Ed.
  - destruct r1 as [|d0 r1]; [discriminate|]. apply N.eqb_eq in Ed as ->.
    cbn [tl]. destruct r1 as [|d r2]; [discriminate|].
    rewrite idchar_charb. destruct (id_charb U d) eqn:Eid; [|discriminate].
    destruct (span_id U _ r2) as [[s2 p2] r3] eqn:Es.
    apply span_id_ok in Es as (-> & -> & Hf2 & Hn2).
    destruct (att_prefix _) as [ty|] eqn:Ep; [|discriminate].
    intros [= <- <- <-]. apply att_prefix_spec in Ep.
    exists ((c :: s) ++ 46%N :: d :: s2). cbn [t_pos t_type t_val]. repeat split.
    + cbn. rewrite <- app_assoc. reflexivity.
    + discriminate.
    + rewrite len_app, !len_cons. lia.
    + eapply lx_attribute; eauto. constructor; auto. now apply id_char_b.
  - apply not_starts_dot_or_id in Hn; auto.
    assert (K : forall kw ty v, py_lower U (c :: s) = kw -> keyword kw ty v ->
                t = Tok ty pos (TStr v) -> p = pos + 1 + len s -> r = r1 ->
      exists s0, c :: s ++ r1 = s0 ++ r /\ s0 <> [] /\ p = pos + len s0 /\ t_pos t = pos /\
            lexeme s0 r (t_type t) (t_val t)).
    { intros kw ty v Hl Hk -> -> ->. exists (c :: s). rewrite len_cons. cbn [t_pos t_type t_val].
      repeat split; try lia; [discriminate|]. eapply lx_keyword; eauto. }
    repeat match goal with
    | |- (if ?a || ?b then _ else _) = _ -> _ => destruct a eqn:?; cbn [orb]
    | |- (if str_eqb ?a ?b then _ else _) = _ -> _ => destruct (str_eqb a b) eqn:?
    end; try discriminate;
    intros [= <- <- <-];
    repeat match goal with
    | H : str_eqb _ _ = true |- _ => apply str_eqb_eq in H
    | H : (_ || _) = true |- _ => apply orb_true_iff in H as [H|H]
    end;
    match goal with
    | H : py_lower U (c :: s) = _ |- _ =>
       eapply K; [exact H | kw | | reflexivity | reflexivity];
       first [reflexivity | do 2 f_equal; eapply keyword_upper; [exact H | kw]]
    end.
Qed.

Lemma lex_char_ok pos c rest t p r :
  lex_char U pos c rest = Ok (t, p, r) ->
  exists s, c :: rest = s ++ r /\ s <> [] /\ p = pos + len s /\ t_pos t = pos /\
            lexeme s r (t_type t) (t_val t).
Proof.
  assert (Sy : forall s ty v, symbolic s ty v -> t = Tok ty pos v ->
       p = pos + len s -> c :: rest = s ++ r ->
       exists s, c :: rest = s ++ r /\ s <> [] /\ p = pos + len s /\ t_pos t = pos /\
            lexeme s r (t_type t) (t_val t)).
  { intros s ty v Hs -> -> ->. exists s. repeat split; auto.
    - destruct Hs; discriminate.
    - now apply lx_symbol. }
  unfold lex_char.
  destruct (N.eqb_spec c 123) as [->|_]. { intros [= <- <- <-]. eapply Sy; [apply sy_lset|..]; reflexivity. }
  destruct (N.eqb_spec c 125) as [->|_]. { intros [= <- <- <-]. eapply Sy; [apply sy_rset|..]; reflexivity. }
  destruct (N.eqb_spec c 44) as [->|_]. { intros [= <- <- <-]. eapply Sy; [apply sy_comma|..]; reflexivity. }
  destruct (N.eqb_spec c 40) as [->|_]. { intros [= <- <- <-]. eapply Sy; [apply sy_lparn|..]; reflexivity. }
  destruct (N.eqb_spec c 41) as [->|_]. { intros [= <- <- <-]. eapply Sy; [apply sy_rparn|..]; reflexivity. }
  destruct (N.eqb_spec c 61) as [->|_]. { intros [= <- <- <-]. eapply Sy; [apply sy_eq|..]; reflexivity. }
  destruct (N.eqb_spec c 62) as [->|_].
  { unfold head_is. destruct rest as [|d rest].
    - intros [= <- <- <-]. exists (lit ">"). repeat split; [discriminate|]. apply lx_gt; cbn; auto.
    - destruct (N.eqb_spec d 61) as [->|Hd].
      + intros [= <- <- <-]. eapply Sy; [apply sy_ge|..]; reflexivity.
      + intros [= <- <- <-]. exists (lit ">"). repeat split; [discriminate|]. apply lx_gt; auto.
        unfold not_starts. apply N.eqb_neq; congruence. }
  destruct (N.eqb_spec c 60) as [->|_].
  { unfold head_is. destruct rest as [|d rest].
    - intros [= <- <- <-]. exists (lit "<"). repeat split; [discriminate|]. apply lx_lt; cbn; auto.
    - destruct (N.eqb_spec d 61) as [->|Hd].
      + intros [= <- <- <-]. eapply Sy; [apply sy_le|..]; reflexivity.
      + intros [= <- <- <-]. exists (lit "<"). repeat split; [discriminate|]. apply lx_lt; auto.
        unfold not_starts. apply N.eqb_neq; congruence. }
  destruct (N.eqb_spec c 33) as [->|_].
  { unfold head_is. destruct rest as [|d rest]; [discriminate|].
    destruct (N.eqb_spec d 61) as [->|Hd]; [|discriminate].
    intros [= <- <- <-]. eapply Sy; [apply sy_ne|..]; reflexivity. }
  destruct (N.eqb_spec c 34) as [->|_].
  { intros H. apply bind_ok in H as ([[s p'] r'] & H & [= <- <- <-]).
    apply string_loop_ok in H as (-> & -> & Hf).
    exists (34%N :: s ++ [34%N]). cbn [t_pos t_type t_val].
    rewrite len_cons, len_app, len_cons, len_nil. repeat split; try lia.
    - cbn. rewrite <- app_assoc. reflexivity.
    - discriminate.
    - eapply lx_string; eauto. }
  destruct (isdigit U c || _) eqn:En.
  { intros H. apply lex_number_ok in H.
    - destruct H as (s & Hs & Hp & Ht & Hl). exists s. repeat split; auto.
      intros ->. clear -Hl. inversion Hl as [ty v Hs|E|E|body E|neg ds n E|neg ds es n E|? ? ? ? ? E|? ? ? ? ? ? E]; subst; try discriminate.
      + inversion Hs.
      + destruct neg; try discriminate. cbn in *. congruence.
      + destruct neg; try discriminate. cbn in *. destruct ds; discriminate.
    - apply orb_true_iff in En as [En|En]; [now left|right].
      apply andb_true_iff in En as [Ec Ed]. apply N.eqb_eq in Ec as ->. split; auto.
      destruct rest as [|d rest]; [discriminate|]. eauto. }
  destruct (isalpha U c) eqn:Ea; [|discriminate].
  intros H. now apply lex_word_ok in H.
Qed.

(** ** The converse: every lexeme is read as such *)

Lemma digit_alpha_ascii c : isdigit U c = true -> isalpha U c = false.
Proof.
  unfold isdigit, isalpha. destruct (asc c) eqn:E.
  - unfold up, low. rewrite andb_true_iff, !N.leb_le. intros [H1 H2].
    apply orb_false_iff; split; apply andb_false_iff; rewrite !N.leb_gt; lia.
  - intros H. destruct (u_alpha U c) eqn:Ea; auto.
    apply (uok_alpha_digit U uok) in Ea. congruence.
Qed.

Lemma space_alpha c : isspace U c = true -> isalpha U c = false.
Proof.
  unfold isspace, isalpha. destruct (asc c) eqn:E; [|apply (uok_space_alpha U uok)].
  unfold up, low. rewrite orb_true_iff, !andb_true_iff, !N.leb_le.
  intros H; apply orb_false_iff; split; apply andb_false_iff; rewrite !N.leb_gt; lia.
Qed.

Lemma space_digit c : isspace U c = true -> isdigit U c = false.
Proof.
  unfold isspace, isdigit. destruct (asc c) eqn:E; [|apply (uok_space_digit U uok)].
  rewrite orb_true_iff, !andb_true_iff, !N.leb_le.
  intros H; apply andb_false_iff; rewrite !N.leb_gt; lia.
Qed.

(** Characters that get a branch of their own in next(). *)
Definition special (c : N) : bool :=
  existsb (N.eqb c) [123; 125; 44; 40; 41; 61; 62; 60; 33; 34]%N.

Lemma lex_char_plain pos c rest :
  special c = false ->
  lex_char U pos c rest =
  if isdigit U c ||
     ((c =? 45)%N && match rest with d :: _ => isdigit U d | [] => false end)
  then lex_number U pos c rest
  else if isalpha U c then lex_word U pos c rest else Err (ELexer pos).
Proof.
  unfold special, lex_char. cbn [existsb]. rewrite !orb_false_iff.
  intros (-> & -> & -> & -> & -> & -> & -> & -> & -> & -> & _). reflexivity.
Qed.

Lemma special_not_alpha c : special c = true -> isalpha U c = false /\ isdigit U c = false /\ isspace U c = false.
Proof.
  unfold special. cbn [existsb]. rewrite !orb_true_iff, !N.eqb_eq.
  intros H; decompose [or] H; clear H; subst; try discriminate; repeat split; reflexivity.
Qed.

Lemma digit_not_special c : isdigit U c = true -> special c = false.
Proof.
  destruct (special c) eqn:E; auto. apply special_not_alpha in E as (_ & E & _). congruence.
Qed.
Lemma alpha_not_special c : isalpha U c = true -> special c = false.
Proof.
  destruct (special c) eqn:E; auto. apply special_not_alpha in E as (E & _). congruence.
Qed.

Lemma lexeme_start s rest ty v :
  lexeme s rest ty v -> exists c s', s = c :: s' /\ isspace U c = false.
Proof.
  destruct 1 as [ty v Hs|E|E|body E|neg ds n E|neg ds es n f E|c s' kw ty v E Hc|c s' d id' cat ty E Hc].
  - destruct Hs; repeat eexists; reflexivity.
  - subst; repeat eexists; reflexivity.
  - subst; repeat eexists; reflexivity.
  - subst; repeat eexists; reflexivity.
  - destruct neg; cbn in E.
    + subst; repeat eexists; reflexivity.
    + destruct ds as [|c ds]; [congruence|]. inversion H0; subst. repeat eexists.
      destruct (isspace U c) eqn:Es; auto. apply space_digit in Es. unfold LexSpec.digit in *. congruence.
  - destruct neg; cbn in E.
    + subst; repeat eexists; reflexivity.
    + destruct ds as [|c ds]; [congruence|]. inversion H1; subst. repeat eexists.
      destruct (isspace U c) eqn:Es; auto. apply space_digit in Es. unfold LexSpec.digit in *. congruence.
  - subst. repeat eexists. destruct (isspace U c) eqn:Es; auto. apply space_alpha in Es.
    unfold letter in *. congruence.
  - subst. repeat eexists. destruct (isspace U c) eqn:Es; auto. apply space_alpha in Es.
    unfold letter in *. congruence.
Qed.

Lemma lex_number_run pos c s' rest (neg : bool) ds :
  c :: s' = sign_of neg ++ ds -> ds <> [] -> Forall digit ds ->
  forall n, decval ds n -> not_starts (dot_or_digit U) rest ->
  lex_number U pos c (s' ++ rest) =
    Ok (Tok INT pos (TInt (if neg then - Z.of_N n else Z.of_N n)), pos + len (c :: s'), rest).
Proof.
  intros E Hne Hf n Hv Hn.
  assert (Hs' : Forall digit s').
  { destruct neg; cbn in E; [injection E as -> ->; auto|].
    destruct ds as [|d ds]; [congruence|]. injection E as -> ->. now inversion Hf. }
  unfold lex_number. rewrite num_loop_run by auto. cbn [bind]. unfold py_int.
  apply digits_val_decval in Hv. rewrite len_cons.
  destruct neg; cbn in E.
  - injection E as -> ->. cbn [strip_sign N.eqb Pos.eqb]. rewrite Hv. cbn [bind]. do 2 f_equal; [f_equal; lia|..]; auto.
  - assert (Hd : (c =? 45)%N = false).
    { destruct (N.eqb_spec c 45) as [->|]; auto. subst ds. inversion Hf.
      unfold LexSpec.digit in *. rewrite digit_not_minus in *. discriminate. }
    cbn [strip_sign]. rewrite Hd, E, Hv. cbn [bind]. do 2 f_equal; [f_equal; lia|..]; auto.
Qed.

Lemma lex_number_run_float pos c s' rest (neg : bool) ds es :
  c :: s' = sign_of neg ++ ds ++ 46%N :: es -> ds <> [] -> es <> [] ->
  Forall digit ds -> Forall digit es ->
  forall n, decval (ds ++ es) n -> not_starts (dot_or_digit U) rest ->
  lex_number U pos c (s' ++ rest) =
    Ok (Tok FLOAT pos (TFloat (float_of_dec neg n (N.of_nat (List.length es)))),
        pos + len (c :: s'), rest).
Proof.
  intros E Hne Hnes Hf Hfe n Hv Hn.
  assert (Hs' : exists ds', s' = ds' ++ 46%N :: es /\ Forall digit ds').
  { destruct neg; cbn in E; [injection E as -> ->; eauto|].
    destruct ds as [|d ds]; [congruence|]. injection E as -> ->. inversion Hf. eauto. }
  destruct Hs' as (ds' & -> & Hds').
  unfold lex_number. rewrite num_loop_run_float by auto. cbn [bind]. unfold py_float.
  apply digits_val_decval in Hv. rewrite len_cons.
  destruct neg; cbn in E.
  - injection E as -> E. apply app_inv_tail in E as ->.
    cbn [strip_sign N.eqb Pos.eqb]. rewrite split_dot_run, Hv by auto. cbn [bind]. do 2 f_equal; [f_equal; lia|..]; auto.
  - assert (Hd : (c =? 45)%N = false).
    { destruct (N.eqb_spec c 45) as [->|]; auto. destruct ds; [congruence|].
      injection E as <- _. inversion Hf.
      unfold LexSpec.digit in *. rewrite digit_not_minus in *. discriminate. }
    cbn [strip_sign]. rewrite Hd, E, split_dot_run, Hv by auto. cbn [bind]. do 2 f_equal; [f_equal; lia|..]; auto.
Qed.

Lemma not_starts_weaken (P Q : N -> bool) r :
  (forall c, P c = true -> Q c = true) -> not_starts Q r -> not_starts P r.
Proof.
  destruct r; cbn; auto. intros H HQ. destruct (P n) eqn:E; auto. apply H in E. congruence.
Qed.

Lemma lex_char_run s rest ty v pos :
  lexeme s rest ty v ->
  exists c s', s = c :: s' /\
    lex_char U pos c (s' ++ rest) = Ok (Tok ty pos v, pos + len s, rest).
Proof.
  destruct 1 as [ty v Hs|E Hn|E Hn|body E Hb|neg ds n E Hne Hf Hv Hn|neg ds es n f E Hne Hnes Hf Hfe Hv Hn Hr
                |c s' kw ty v E Hc Hf Hl Hk Hn|c s' d id' cat ty E Hc Hf Hf2 Hl Hk Hn].
  - destruct Hs; do 2 eexists; (split; [reflexivity|]); reflexivity.
  - subst s. exists 62%N, []. split; [reflexivity|].
    destruct rest as [|d rest]; [reflexivity|]. unfold not_starts in Hn. rewrite N.eqb_sym in Hn.
    cbn [app]. unfold lex_char. cbn [head_is]. rewrite Hn. reflexivity.
  - subst s. exists 60%N, []. split; [reflexivity|].
    destruct rest as [|d rest]; [reflexivity|]. unfold not_starts in Hn. rewrite N.eqb_sym in Hn.
    cbn [app]. unfold lex_char. cbn [head_is]. rewrite Hn. reflexivity.
  - subst s. do 2 eexists; split; [reflexivity|]. unfold lex_char. cbn [N.eqb Pos.eqb].
    rewrite <- app_assoc. cbn [app]. rewrite string_loop_run by auto. cbn [bind].
    rewrite len_cons, len_app, len_cons, len_nil. do 2 f_equal; [f_equal; lia|..]; auto.
  - destruct s as [|c s']; [destruct neg; cbn in E; congruence|].
    exists c, s'. split; auto. rewrite lex_char_plain.
    + replace (isdigit U c || _) with true; [eapply lex_number_run; eauto|].
      symmetry. destruct neg; cbn in E.
      * injection E as -> ->. destruct ds; [congruence|]. inversion Hf; subst. cbn [app].
        unfold LexSpec.digit in *. rewrite H1. reflexivity.
      * subst ds. inversion Hf; subst. unfold LexSpec.digit in *. rewrite H1. reflexivity.
    + destruct neg; cbn in E.
      * injection E as -> ->. reflexivity.
      * subst ds. inversion Hf; subst. now apply digit_not_special.
  - apply literal_rounds in Hr. subst f. destruct s as [|c s']; [destruct neg, ds; cbn in E; congruence|].
    exists c, s'. split; auto. rewrite lex_char_plain.
    + replace (isdigit U c || _) with true; [eapply lex_number_run_float; eauto|].
      symmetry. destruct neg; cbn in E.
      * injection E as -> ->. destruct ds; [congruence|]. inversion Hf; subst. cbn [app].
        unfold LexSpec.digit in *. rewrite H1. reflexivity.
      * destruct ds; [congruence|]. injection E as -> ->.
        inversion Hf; subst. unfold LexSpec.digit in *. rewrite H1. reflexivity.
    + destruct neg; cbn in E.
      * injection E as -> ->. reflexivity.
      * destruct ds; [congruence|]. injection E as -> ->.
        inversion Hf; subst. now apply digit_not_special.
  - subst s. exists c, s'. split; auto. rewrite lex_char_plain by now apply alpha_not_special.
    replace (isdigit U c || _) with false.
    2:{ symmetry. apply orb_false_iff. unfold letter in Hc. split.
        - destruct (isdigit U c) eqn:E; auto. apply digit_alpha_ascii in E. congruence.
        - apply andb_false_iff. left. apply N.eqb_neq. intros ->. discriminate. }
    unfold letter in Hc. rewrite Hc. unfold lex_word.
    rewrite span_id_run; auto.
    2:{ eapply not_starts_weaken; [|exact Hn]. unfold dot_or_id. intros x ->. reflexivity. }
    replace (match rest with d :: _ => (d =? 46)%N | [] => false end) with false.
    2:{ destruct rest; auto. cbn in Hn. unfold dot_or_id in Hn. apply orb_false_iff in Hn as [_ ->]. auto. }
    pose proof (keyword_upper _ _ _ _ Hl Hk) as Hu. rewrite Hu, Hl, len_cons, Z.add_assoc.
    destruct Hk; reflexivity.
  - subst s. exists c, (s' ++ 46%N :: d :: id'). split; auto.
    rewrite lex_char_plain by now apply alpha_not_special.
    replace (isdigit U c || _) with false.
    2:{ symmetry. apply orb_false_iff. unfold letter in Hc. split.
        - destruct (isdigit U c) eqn:E; auto. apply digit_alpha_ascii in E. congruence.
        - apply andb_false_iff. left. apply N.eqb_neq. intros ->. discriminate. }
    unfold letter in Hc. rewrite Hc. unfold lex_word.
    rewrite <- app_assoc. rewrite span_id_run; auto.
    2:{ reflexivity. }
    cbn [app tl N.eqb Pos.eqb]. inversion Hf2; subst.
    rewrite idchar_charb. apply id_char_b in H1 as ->.
    rewrite span_id_run by auto. apply att_prefix_spec in Hk as ->.
    rewrite len_cons, len_app, !len_cons. do 2 f_equal. f_equal. lia.
Qed.

End WithUnicode.
