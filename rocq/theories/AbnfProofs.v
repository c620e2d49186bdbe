(** * AbnfProofs: from characters to tokens and back *)

From Coq Require Import NArith ZArith List Bool String Lia.
From Verif Require Import PyBase PyNum FloatSpec FloatLit Lexer LexSpec LexProofs LexProofs2 LexCase Grammar Abnf.
Import ListNotations.
Open Scope Z_scope.

(** ** Meaning of the notation *)

Section Lang.
Variable strict : bool.
Variable G : rule -> abnf.

Lemma den_mono (L M : rule -> str -> Prop) t e : (forall r s, L r s -> M r s) ->
  forall s, den strict L t e s -> den strict M t e s.
Proof.
  intros HL. induction e as [x|lo hi|a IHa b IHb|a IHa b IHb|a IHa|a IHa|a IHa|r]; cbn; intros s H; auto.
  - destruct H as (x & w & y & -> & Ha & Hb & Hg). exists x, w, y. auto.
  - destruct H; auto.
  - destruct H; auto.
  - destruct H as (l & -> & H). exists l. split; auto. eapply Forall_impl; [|exact H]. auto.
  - destruct H as (l & Hn & -> & H). exists l. repeat split; auto. eapply Forall_impl; [|exact H]. auto.
Qed.

Lemma derived_S n : forall r s, derived strict G n r s -> derived strict G (S n) r s.
Proof.
  induction n as [|n IH]; intros r s H; [contradiction|].
  change (den strict (derived strict G (S n)) (tight r) (G r) s).
  cbn [derived] in H. eapply den_mono; [|exact H]. exact IH.
Qed.
Lemma derived_le n m r s : (n <= m)%nat -> derived strict G n r s -> derived strict G m r s.
Proof. induction 1; auto. intros; now apply derived_S, IHle. Qed.

Lemma den_height t e : forall s, den strict (text_of strict G) t e s -> exists n, den strict (derived strict G n) t e s.
Proof.
  assert (UP : forall n m t e s, (n <= m)%nat -> den strict (derived strict G n) t e s -> den strict (derived strict G m) t e s).
  { intros n m t0 e0 s Hn. apply den_mono. intros r s0. now apply derived_le. }
  assert (LIST : forall (P : nat -> str -> Prop), (forall n m s, (n <= m)%nat -> P n s -> P m s) ->
    forall l, Forall (fun s => exists n, P n s) l -> exists n, Forall (P n) l).
  { intros P HP l H. induction H as [|x l (n & Hx) H (m & Hm)]; [exists O; constructor|].
    exists (Nat.max n m). constructor; [eapply HP; [|exact Hx]; lia|].
    eapply Forall_impl; [|exact Hm]. intros s. apply HP. lia. }
  induction e as [x|lo hi|a IHa b IHb|a IHa b IHb|a IHa|a IHa|a IHa|r]; cbn [den]; intros s H.
  - exists O. exact H.
  - exists O. exact H.
  - destruct H as (x & w & y & -> & Ha & Hb & Hg). apply IHa in Ha as (n & Ha). apply IHb in Hb as (m & Hb).
    exists (Nat.max n m), x, w, y. repeat split; auto; [apply UP with n|apply UP with m]; auto; lia.
  - destruct H as [H|H]; [apply IHa in H as (n & H)|apply IHb in H as (n & H)]; exists n; auto.
  - destruct H as [H|H]; [exists O; auto|]. apply IHa in H as (n & H). exists n; auto.
  - destruct H as (l & -> & H). apply (Forall_impl _ IHa), LIST in H as (n & H).
    + exists n, l. auto.
    + intros n m s. apply UP.
  - destruct H as (l & Hl & -> & H). apply (Forall_impl _ IHa), LIST in H as (n & H).
    + exists n, l. auto.
    + intros n m s. apply UP.
  - destruct H as (n & H). exists n. exact H.
Qed.

Lemma text_of_fold r s : den strict (text_of strict G) (tight r) (G r) s -> text_of strict G r s.
Proof. intros H. apply den_height in H as (n & H). exists (S n). exact H. Qed.
Lemma text_of_unfold r s : text_of strict G r s -> den strict (text_of strict G) (tight r) (G r) s.
Proof.
  intros ([|n] & H); [contradiction|]. cbn [derived] in H. eapply den_mono; [|exact H].
  intros r0 s0 H0. exists n. exact H0.
Qed.
End Lang.

(** ** Characters *)

Lemma ascii_cons c s : is_ascii (c :: s) = true <-> (c < 128)%N /\ is_ascii s = true.
Proof. unfold is_ascii. cbn. rewrite andb_true_iff. unfold asc. now rewrite N.ltb_lt. Qed.
Lemma ascii_app2 a b : is_ascii (a ++ b) = true <-> is_ascii a = true /\ is_ascii b = true.
Proof. unfold is_ascii. rewrite forallb_app. apply andb_true_iff. Qed.
Lemma ascii_forall s : is_ascii s = true <-> Forall (fun c => (c < 128)%N) s.
Proof.
  unfold is_ascii. rewrite forallb_forall, Forall_forall. unfold asc.
  split; intros H c Hc; apply H in Hc; now apply N.ltb_lt.
Qed.
Lemma ascii_lower s t : map lower_c s = map lower_c t -> is_ascii s = is_ascii t.
Proof.
  revert t. induction s as [|a s IH]; intros [|b t] H; cbn in H; try discriminate; auto.
  injection H as Hc H. unfold is_ascii. cbn. f_equal; [|now apply IH].
  unfold lower_c, up, asc in *.
  destruct (N.leb_spec 65 a), (N.leb_spec a 90), (N.leb_spec 65 b), (N.leb_spec b 90), (N.ltb_spec a 128), (N.ltb_spec b 128); cbn in Hc; auto; lia.
Qed.
Lemma ascii_ws w : Forall ws w -> is_ascii w = true.
Proof. intros H. apply ascii_forall. eapply Forall_impl; [|exact H]. unfold ws. cbn. lia. Qed.

Definition name_dot (c : N) : Prop := name_char c \/ c = 46%N.

Lemma N_le_dec a b : ({a <= b} + {~ a <= b})%N.
Proof. destruct (a <=? b)%N eqn:E; [left; now apply N.leb_le|right; now apply N.leb_gt in E; lia]. Qed.
Lemma alpha_dec c : {alpha c} + {~ alpha c}.
Proof.
  unfold alpha. destruct (N_le_dec 65 c), (N_le_dec c 90), (N_le_dec 97 c), (N_le_dec c 122); (left; lia) || (right; lia).
Qed.

Lemma word_split a b : ends_in_word (a ++ b) ->
  ends_in_word b \/ (Forall name_dot b /\ Forall (fun c => ~ alpha c) b /\ ends_in_word a).
Proof.
  intros (pre & run & E & Hr & Ha). apply app_eq_app in E as (l & [(-> & ->)|(-> & ->)]).
  - (* a = pre ++ l, run = l ++ b *)
    apply Forall_app in Hr as [Hl Hb]. destruct (Exists_dec alpha b alpha_dec) as [X|X].
    + left. exists [], b. auto.
    + right. split; [exact Hb|]. split; [now apply Forall_Exists_neg|].
      exists pre, l. apply Exists_app in Ha as [Ha|Ha]; [auto|contradiction].
  - left. exists l, run. auto.
Qed.
Lemma word_last a c : ends_in_word (a ++ [c]) -> name_dot c.
Proof.
  intros H. apply word_split in H as [(pre & run & E & Hr & Ha)|(H & _)]; [|now inversion H].
  destruct pre as [|x pre]; cbn in E; [subst; now inversion Hr|].
  injection E as <- E. symmetry in E. apply app_eq_nil in E as [-> ->]. inversion Ha.
Qed.
Lemma word_alpha s : ends_in_word s -> Exists alpha s.
Proof. intros (pre & run & -> & _ & H). apply Exists_app. auto. Qed.
Lemma word_more a b : ends_in_word b -> ends_in_word (a ++ b).
Proof. intros (pre & run & -> & H). exists (a ++ pre), run. rewrite app_assoc. auto. Qed.

Section WithUnicode.
Variable U : unicode.
Variable uok : unicode_ok U.

Lemma asc_true c : (c < 128)%N -> asc c = true.
Proof. intros. unfold asc. now apply N.ltb_lt. Qed.
Lemma space_ws c : (c < 128)%N -> isspace U c = true <-> ws c.
Proof.
  intros H. unfold isspace, ws. rewrite asc_true by auto. rewrite orb_true_iff, !andb_true_iff, !N.leb_le. lia.
Qed.
Lemma ws_space c : ws c -> isspace U c = true.
Proof. intros H. apply space_ws; auto. unfold ws in H. lia. Qed.
Lemma alpha_is c : (c < 128)%N -> isalpha U c = true <-> alpha c.
Proof.
  intros H. unfold isalpha, alpha, up, low. rewrite asc_true by auto. rewrite orb_true_iff, !andb_true_iff, !N.leb_le. lia.
Qed.
Lemma is_alpha c : alpha c -> isalpha U c = true.
Proof. intros H. apply alpha_is; auto. unfold alpha in H. lia. Qed.
Lemma digit_is c : (c < 128)%N -> isdigit U c = true <-> (48 <= c <= 57)%N.
Proof. intros H. unfold isdigit. rewrite asc_true by auto. rewrite andb_true_iff, !N.leb_le. lia. Qed.
Lemma is_digit c : (48 <= c <= 57)%N -> isdigit U c = true.
Proof. intros H. apply digit_is; auto. lia. Qed.
Lemma name_is c : (c < 128)%N -> id_charb U c = true <-> name_char c.
Proof.
  intros H. unfold id_charb, name_char. rewrite !orb_true_iff, alpha_is, digit_is, N.eqb_eq by auto. tauto.
Qed.
Lemma is_name c : name_char c -> id_charb U c = true.
Proof. intros H. apply name_is; auto. unfold name_char, alpha in H. lia. Qed.
Lemma id_is c : (c < 128)%N -> id_char U c <-> name_char c.
Proof.
  intros H. unfold id_char, name_char, letter, digit. now rewrite alpha_is, digit_is by auto.
Qed.
Lemma blank_ws w : Forall ws w -> blank U w.
Proof. intros H. eapply Forall_impl; [|exact H]. exact ws_space. Qed.
Lemma ws_blank w : is_ascii w = true -> blank U w -> Forall ws w.
Proof.
  intros Ha H. apply ascii_forall in Ha. induction H as [|c w Hc H IH]; [constructor|].
  inversion Ha; subst. constructor; auto. now apply space_ws.
Qed.

(** ** Lexemes *)

(** A lexeme that ends in a word is followed by no character of a word. *)
Lemma lexeme_word s rest ty v : lexeme U s rest ty v -> is_ascii s = true -> ends_in_word s ->
  not_starts (id_charb U) rest.
Proof.
  intros H Ha Hw.
  assert (ND : forall c, name_dot c -> ((c <? 46) || (c =? 47) || ((57 <? c) && (c <? 65)) || (122 <? c))%N = false).
  { unfold name_dot, name_char, alpha. intros c Hc.
    destruct (N.ltb_spec c 46), (N.eqb_spec c 47), (N.ltb_spec 57 c), (N.ltb_spec c 65), (N.ltb_spec 122 c); cbn; auto; lia. }
  assert (NUM : forall ds, Forall (digit U) ds -> is_ascii ds = true -> Exists alpha ds -> False).
  { intros ds Hd Hs Hx. apply ascii_forall in Hs. apply Exists_exists in Hx as (c & Hc & Hx).
    rewrite Forall_forall in Hd, Hs. pose proof (Hs _ Hc) as Hs'. apply Hd in Hc. apply digit_is in Hc; auto.
    unfold alpha in Hx. lia. }
  destruct H as [ty v Hs|E|E|body E|neg ds n E|neg ds es n f E|c s' kw ty v E|c s' d id' cat ty E].
  - exfalso. destruct Hs; match type of Hw with ends_in_word ?x => let y := eval vm_compute in x in change x with y in Hw end;
    match type of Hw with ends_in_word [?a] => apply (word_last []) in Hw
    | ends_in_word [?a; ?b] => apply (word_last [a]) in Hw end; apply ND in Hw; discriminate Hw.
  - exfalso. subst. apply (word_last []) in Hw. apply ND in Hw; discriminate Hw.
  - exfalso. subst. apply (word_last []) in Hw. apply ND in Hw; discriminate Hw.
  - exfalso. subst. apply (word_last (34%N :: body)) in Hw. apply ND in Hw; discriminate Hw.
  - exfalso. subst. apply word_alpha in Hw. apply ascii_app2 in Ha as [_ Ha].
    apply Exists_app in Hw as [Hw|Hw]; [|now apply (NUM ds)].
    destruct neg; inversion Hw as [? ? X|? ? X]; subst; [unfold alpha in X; lia|inversion X].
  - exfalso. subst. apply word_alpha in Hw. apply ascii_app2 in Ha as [_ Ha]. apply ascii_app2 in Ha as [Ha1 Ha2].
    apply ascii_cons in Ha2 as [_ Ha2].
    apply Exists_app in Hw as [Hw|Hw]; [|apply Exists_app in Hw as [Hw|Hw]; [now apply (NUM ds)|]].
    + destruct neg; inversion Hw as [? ? X|? ? X]; subst; [unfold alpha in X; lia|inversion X].
    + inversion Hw as [? ? X|? ? X]; subst; [unfold alpha in X; lia|now apply (NUM es)].
  - destruct rest as [|x rest]; cbn in *; auto. unfold dot_or_id in *. apply orb_false_iff in H3. tauto.
  - exact H4.
Qed.

(** The first character of a lexeme. *)
Lemma lexeme_first s rest ty v : lexeme U s rest ty v ->
  exists c s', s = c :: s' /\ isspace U c = false /\ c <> 46%N /\ c <> 95%N /\ (c = 61%N -> ty = OP) /\
    (isdigit U c = true -> ty = INT \/ ty = FLOAT) /\ (isalpha U c = true -> ends_in_word s \/ is_ascii s = false).
Proof.
  intros H. pose proof (lexeme_start U uok _ _ _ _ H) as (c & s' & E & Hs). exists c, s'. split; [auto|]. split; [auto|].
  destruct H as [ty v Hy|E1|E1|body E1|neg ds n E1 Hn Hd|neg ds es n f E1 Hn He Hd|c0 s0 kw ty v E1 Hl Hf|c0 s0 d id' cat ty E1 Hl Hf Hi].
  - destruct Hy; vm_compute in E; injection E as <- _; (split; [discriminate|]); (split; [discriminate|]);
    (split; [try discriminate; auto|]); split; discriminate.
  - rewrite E in E1. injection E1 as -> _. repeat split; discriminate.
  - rewrite E in E1. injection E1 as -> _. repeat split; discriminate.
  - rewrite E in E1. injection E1 as -> _. repeat split; discriminate.
  - assert (C : c = 45%N \/ digit U c).
    { rewrite E in E1. destruct neg; cbn in E1; [injection E1 as -> _; auto|]. destruct ds; [congruence|]. injection E1 as -> ->. inversion Hd; auto. }
    destruct C as [->|C]; [repeat split; discriminate|].
    assert (X : forall k, isdigit U k = false -> c <> k) by (intros k X ->; unfold digit in C; congruence).
    repeat split; try (apply X; reflexivity); auto.
    + intros ->. discriminate C.
    + intros A. now rewrite (digit_alpha_ascii U uok) in A.
  - assert (C : c = 45%N \/ digit U c).
    { rewrite E in E1. destruct neg; cbn in E1; [injection E1 as -> _; auto|]. destruct ds; [congruence|]. injection E1 as -> ->. inversion Hd; auto. }
    destruct C as [->|C]; [repeat split; discriminate|].
    assert (X : forall k, isdigit U k = false -> c <> k) by (intros k X ->; unfold digit in C; congruence).
    repeat split; try (apply X; reflexivity); auto.
    + intros ->. discriminate C.
    + intros A. now rewrite (digit_alpha_ascii U uok) in A.
  - rewrite E in E1. injection E1 as -> ->.
    assert (X : forall k, isalpha U k = false -> c0 <> k) by (intros k X ->; unfold letter in Hl; congruence).
    split; [apply X; reflexivity|]. split; [apply X; reflexivity|]. split; [intros ->; discriminate Hl|]. split.
    + intros A. apply (digit_alpha_ascii U uok) in A. unfold letter in Hl. congruence.
    + intros _. destruct (is_ascii s) eqn:A; auto. left. rewrite E in *. exists [], (c0 :: s0). split; auto.
      apply ascii_cons in A as [A1 A2]. apply ascii_forall in A2. split.
      * constructor; [left; left; now apply alpha_is|]. rewrite Forall_forall in *. intros x Hx. left. apply id_is; auto.
      * apply Exists_cons_hd. now apply alpha_is.
  - rewrite E in E1. injection E1 as -> E1.
    assert (X : forall k, isalpha U k = false -> c0 <> k) by (intros k X ->; unfold letter in Hl; congruence).
    split; [apply X; reflexivity|]. split; [apply X; reflexivity|]. split; [intros ->; discriminate Hl|]. split.
    + intros A. apply (digit_alpha_ascii U uok) in A. unfold letter in Hl. congruence.
    + intros _. destruct (is_ascii s) eqn:A; auto. left. rewrite E in *. exists [], (c0 :: s'). split; auto.
      apply ascii_cons in A as [A1 A2]. apply ascii_forall in A2. split.
      * constructor; [left; left; now apply alpha_is|]. subst s'. apply Forall_app in A2 as [A2 A3]. inversion A3; subst.
        apply Forall_app. split; [|constructor; [right; reflexivity|]].
        -- rewrite Forall_forall in *. intros x Hx. left. apply id_is; auto.
        -- rewrite Forall_forall in *. intros x Hx. left. apply id_is; auto.
      * apply Exists_cons_hd. now apply alpha_is.
Qed.

(** ** Lexemes with blanks before them, in any context *)

Inductive segs : list (str * str) -> str -> list (ttype * tokval) -> Prop :=
| segs_nil k : segs [] k []
| segs_cons w s it k ty v tvs : blank U w -> lexeme U s (layout it k) ty v -> segs it k tvs ->
    segs ((w, s) :: it) k ((ty, v) :: tvs).

Lemma layout_app a b k : layout (a ++ b) k = layout a (layout b k).
Proof. induction a as [|[w s] a IH]; cbn; auto. now rewrite IH. Qed.
Lemma layout_nil a k : layout a k = layout a [] ++ k.
Proof. induction a as [|[w s] a IH]; cbn; auto. now rewrite IH, !app_assoc. Qed.

Lemma segmented_segs it k tvs : segmented U it k tvs <-> segs it k tvs /\ blank U k.
Proof.
  split.
  - induction 1 as [k H|w s it k ty v tvs Hw Hl H [IH IH2]]; split; auto; constructor; auto.
  - intros [H Hk]. induction H; constructor; auto.
Qed.
Lemma segs_app it1 it2 k t1 t2 : segs it1 (layout it2 k) t1 -> segs it2 k t2 -> segs (it1 ++ it2) k (t1 ++ t2).
Proof.
  intros H. remember (layout it2 k) as k1 eqn:E. induction H; intros H2; cbn; auto.
  constructor; auto. now rewrite layout_app, <- E.
Qed.
Lemma segs_split t1 : forall it k t2, segs it k (t1 ++ t2) ->
  exists it1 it2, it = it1 ++ it2 /\ segs it1 (layout it2 k) t1 /\ segs it2 k t2.
Proof.
  induction t1 as [|[ty v] t1 IH]; intros it k t2 H.
  - exists [], it. repeat split; auto. constructor.
  - inversion H as [|w s it0 k0 ty0 v0 tvs Hw Hl Hr]; subst. apply IH in Hr as (i1 & i2 & -> & H1 & H2).
    exists ((w, s) :: i1), i2. repeat split; auto. constructor; auto. now rewrite layout_app in Hl.
Qed.

Definition lead (it : list (str * str)) : str := match it with (w, _) :: _ => w | [] => [] end.
Definition core (it : list (str * str)) : str := match it with (_, s) :: r => s ++ layout r [] | [] => [] end.
Lemma lead_core it : layout it [] = lead it ++ core it.
Proof. destruct it as [|[w s] it]; reflexivity. Qed.
Lemma core_app a b : a <> [] -> core (a ++ b) = core a ++ lead b ++ core b.
Proof.
  destruct a as [|[w s] a]; [congruence|]. intros _. cbn [core app]. rewrite layout_app, layout_nil.
  rewrite (lead_core b). now rewrite <- !app_assoc.
Qed.

(** What ends in a word is followed by no character of a word. *)
Lemma segs_word it k tvs : segs it k tvs -> is_ascii (layout it []) = true -> ends_in_word (layout it []) ->
  not_starts (id_charb U) k.
Proof.
  induction 1 as [k|w s it k ty v tvs Hw Hl Hr IH]; cbn [layout]; intros Ha H.
  - apply word_alpha in H. inversion H.
  - apply ascii_app2 in Ha as [Aw Ha]. apply ascii_app2 in Ha as [As Ai].
    rewrite app_assoc in H. apply word_split in H as [H|(F1 & F2 & H)]; [auto|].
    apply word_split in H as [H|(_ & _ & H)].
    2:{ exfalso. apply ws_blank in Hw; auto. apply word_alpha, Exists_exists in H as (c & Hc & H).
        rewrite Forall_forall in Hw. apply Hw in Hc. unfold ws, alpha in *. lia. }
    pose proof (lexeme_word _ _ _ _ Hl As H) as N.
    destruct Hr as [k|w' s' it k ty' v' tvs Hw' Hl' Hr]; [exact N|]. exfalso. cbn [layout] in *.
    destruct w' as [|c w'].
    + apply lexeme_first in Hl' as (c & r & -> & _ & N1 & N2 & _). cbn in F1, F2, N.
      inversion F1 as [|? ? X Y]; subst. inversion F2 as [|? ? X2 Y2]; subst.
      assert (D : (48 <= c <= 57)%N) by (unfold name_dot, name_char in X; tauto).
      rewrite is_name in N; [discriminate|]. unfold name_char. auto.
    + cbn in F1, Ai. apply ascii_cons in Ai as [Ai _]. inversion F1 as [|? ? X Y]; subst. inversion Hw' as [|? ? X2 Y2]; subst.
      apply space_ws in X2; auto. unfold ws, name_dot, name_char, alpha in *. lia.
Qed.

(** The gap between two pieces. *)
Lemma segs_gap it1 it2 k t1 t2 : segs it1 (layout it2 k) t1 -> segs it2 k t2 ->
  is_ascii (layout it1 []) = true -> is_ascii (layout it2 []) = true ->
  gap true false (core it1) (lead it2) (core it2).
Proof.
  intros H1 H2 A1 A2. cbn [gap]. split.
  - destruct H2 as [|w s it k ty v tvs Hw _ _]; [constructor|]. cbn in *. apply ascii_app2 in A2 as [A2 _]. now apply ws_blank.
  - intros _ Hw (c & r & E & Hc) Hl.
    assert (W : ends_in_word (layout it1 [])) by (rewrite lead_core; now apply word_more).
    apply (segs_word _ _ _ H1 A1) in W. rewrite layout_nil, lead_core, Hl, E in W. cbn in W.
    rewrite is_name in W by auto. discriminate.
Qed.
End WithUnicode.
