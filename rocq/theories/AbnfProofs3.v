(** * AbnfProofs3: what is written in the grammar is accepted *)

From Coq Require Import NArith ZArith List Bool String Lia.
From Verif Require Import PyBase PyNum FloatSpec FloatLit Lexer LexSpec LexProofs LexProofs2 LexCase Grammar Abnf AbnfProofs AbnfProofs2.
Import ListNotations.
Open Scope Z_scope.

(** ** All texts of the grammar are ASCII *)

Fixpoint abnf_ascii (e : abnf) : bool :=
  match e with
  | Txt t => is_ascii (lit t) | Rng _ hi => (hi <? 128)%N
  | Seq a b | Alt a b => abnf_ascii a && abnf_ascii b
  | Opt a | Star a | Plus a => abnf_ascii a
  | Ref _ => true
  end.
Lemma lower_idem s : map lower_c (map lower_c s) = map lower_c s.
Proof.
  rewrite map_map. apply map_ext. intros c. unfold lower_c, up.
  destruct (N.leb_spec 65 c), (N.leb_spec c 90); cbn; auto.
  - destruct (N.leb_spec 65 (c + 32)), (N.leb_spec (c + 32) 90); cbn; auto; lia.
  - destruct (N.leb_spec 65 c), (N.leb_spec c 90); cbn; auto; lia.
  - destruct (N.leb_spec 65 c), (N.leb_spec c 90); cbn; auto; lia.
  - destruct (N.leb_spec 65 c), (N.leb_spec c 90); cbn; auto; lia.
Qed.
Lemma concat_ascii l : Forall (fun s => is_ascii s = true) l -> is_ascii (List.concat l) = true.
Proof. induction 1; cbn; auto. apply ascii_app2. auto. Qed.
Lemma den_ascii strict (L : rule -> str -> Prop) t e : (forall r s, L r s -> is_ascii s = true) -> abnf_ascii e = true ->
  forall s, den strict L t e s -> is_ascii s = true.
Proof.
  intros HL. induction e as [x|lo hi|a IHa b IHb|a IHa b IHb|a IHa|a IHa|a IHa|r]; cbn [abnf_ascii den]; intros Hx s H.
  - apply ascii_lower in H. congruence.
  - destruct H as (c & -> & H). apply N.ltb_lt in Hx. apply ascii_cons. split; auto. lia.
  - apply andb_true_iff in Hx as [Xa Xb]. destruct H as (x & w & y & -> & Ha & Hb & Hg). apply ascii_app2. split; auto.
    apply ascii_app2. split; auto. destruct t; cbn in Hg; [subst; reflexivity|]. now apply ascii_ws.
  - apply andb_true_iff in Hx as [Xa Xb]. destruct H; auto.
  - destruct H as [->|H]; auto.
  - destruct H as (l & -> & H). apply concat_ascii. eapply Forall_impl; [|exact H]. auto.
  - destruct H as (l & _ & -> & H). apply concat_ascii. eapply Forall_impl; [|exact H]. auto.
  - now apply HL in H.
Qed.
Lemma derived_ascii strict n : forall r s, derived strict implemented n r s -> is_ascii s = true.
Proof.
  induction n as [|n IH]; intros r s H; [contradiction|]. cbn [derived] in H.
  eapply den_ascii; [exact IH| |exact H]. destruct r; reflexivity.
Qed.
Lemma impl_ascii strict r s : text_of strict implemented r s -> is_ascii s = true.
Proof. intros (n & H). eapply derived_ascii; eauto. Qed.

(** ** Words *)

Lemma lower_low c : (97 <= lower_c c <= 122)%N -> alpha c.
Proof. unfold lower_c, up, alpha. destruct (N.leb_spec 65 c), (N.leb_spec c 90); cbn; lia. Qed.
Lemma lower_other c k : lower_c c = k -> ~ (97 <= k <= 122)%N -> c = k.
Proof. unfold lower_c, up. destruct (N.leb_spec 65 c), (N.leb_spec c 90); cbn; lia. Qed.
Definition lows (s : str) : bool := forallb (fun c => (97 <=? c) && (c <=? 122))%N s.
Definition others (s : str) : bool := forallb (fun c => negb ((97 <=? c) && (c <=? 122)))%N s.
Lemma same_letters s kw : map lower_c s = kw -> lows kw = true -> Forall alpha s.
Proof.
  intros <- H. unfold lows in H. rewrite forallb_forall in H. apply Forall_forall. intros c Hc.
  apply lower_low. specialize (H (lower_c c) (in_map _ _ _ Hc)). cbv beta in H. rewrite andb_true_iff, !N.leb_le in H. exact H.
Qed.
Lemma same_other s kw : map lower_c s = kw -> others kw = true -> s = kw.
Proof.
  intros <-. induction s as [|c s IH]; cbn; auto. rewrite andb_true_iff, negb_true_iff, andb_false_iff, !N.leb_gt.
  intros [Hc H]. f_equal; [|now apply IH]. apply lower_other; auto. lia.
Qed.
Lemma letters_word s : s <> [] -> Forall alpha s -> ends_in_word s.
Proof.
  intros Hn H. exists [], s. split; auto. split.
  - eapply Forall_impl; [|exact H]. intros c Hc. left. now left.
  - destruct H; [congruence|]. now apply Exists_cons_hd.
Qed.

Section WithUnicode.
Variable U : unicode.
Variable uok : unicode_ok U.
Notation segs := (segs U).

(** What may follow a text: no full stop, and no character that would carry on its last word. *)
Definition after (s k : str) : Prop :=
  not_starts (N.eqb 46) k /\ (ends_in_word s -> not_starts (id_charb U) k).

Lemma after_dot_id s k : after s k -> ends_in_word s -> not_starts (dot_or_id U) k.
Proof.
  intros [H1 H2] H. apply H2 in H. destruct k as [|c k]; cbn in *; auto. unfold dot_or_id. rewrite H.
  rewrite N.eqb_sym. exact H1.
Qed.
Lemma keyword_lexeme s k t ty v : same_text s t -> keyword (map lower_c (lit t)) ty v -> after s k -> lexeme U s k ty (TStr v).
Proof.
  intros Hs Hk Ha.
  assert (L : lows (map lower_c (lit t)) = true) by (destruct Hk; vm_compute; reflexivity).
  assert (N : map lower_c (lit t) <> []) by (destruct Hk; discriminate).
  pose proof (same_letters _ _ Hs L) as Hl.
  assert (A : is_ascii s = true) by (apply ascii_forall; eapply Forall_impl; [|exact Hl]; unfold alpha; cbn; lia).
  destruct s as [|c s']; [now rewrite <- Hs in N|].
  inversion Hl as [|? ? Hc Hl']; subst. eapply lx_keyword; [reflexivity| | |reflexivity| |].
  - now apply is_alpha.
  - eapply Forall_impl; [|exact Hl']. intros x Hx. left. now apply is_alpha.
  - unfold py_lower. rewrite A. unfold same_text in Hs. rewrite Hs. exact Hk.
  - apply (after_dot_id (c :: s')); auto. apply letters_word; auto. discriminate.
Qed.
Lemma symbol_lexeme s k t ty v : same_text s t -> symbolic (lit t) ty v -> lexeme U s k ty v.
Proof.
  intros Hs Hk. apply lx_symbol.
  assert (s = lit t) as ->; auto.
  assert (E : map lower_c (lit t) = lit t) by (destruct Hk; vm_compute; reflexivity).
  unfold same_text in Hs. rewrite E in Hs. apply same_other; auto. destruct Hk; vm_compute; reflexivity.
Qed.
Lemma op_lexeme s k : text_of true implemented Rop s -> after s k -> not_starts (N.eqb 61) k -> exists v, lexeme U s k OP v.
Proof.
  intros H Ha Hk. apply text_of_unfold in H. cbn [implemented documented tight den] in H.
  assert (E : forall t, same_text s t -> map lower_c (lit t) = lit t -> others (lit t) = true -> s = lit t).
  { intros t Ht X. unfold same_text in Ht. rewrite X in Ht. now apply same_other. }
  destruct H as [[[[[[[H|H]|H]|H]|H]|H]|H]|H].
  - eexists. apply lx_gt; auto.
  - eexists. apply lx_lt; auto.
  - eexists. eapply symbol_lexeme; [exact H|constructor].
  - eexists. eapply symbol_lexeme; [exact H|constructor].
  - eexists. eapply symbol_lexeme; [exact H|constructor].
  - eexists. eapply symbol_lexeme; [exact H|constructor].
  - eexists. eapply keyword_lexeme; [exact H| |exact Ha]. constructor.
  - eexists. eapply keyword_lexeme; [exact H| |exact Ha]. constructor.
Qed.

(** ** Names and literals *)

Lemma concat_chars (P : N -> Prop) l : Forall (fun s => exists c, s = [c] /\ P c) l -> Forall P (List.concat l) /\ List.length (List.concat l) = List.length l.
Proof.
  induction 1 as [|s l (c & -> & Hc) H [IH1 IH2]]; cbn; [split; [constructor|auto]|]. split; [constructor; auto|]. now rewrite IH2.
Qed.
Lemma length_nil {A B} (a : list A) (b : list B) : List.length a = List.length b -> b <> [] -> a <> [].
Proof. destruct a, b; cbn; congruence || discriminate. Qed.
Lemma id_inv s : text_of true implemented Rid s -> s <> [] /\ Forall name_char s.
Proof.
  intros H. apply text_of_unfold in H. cbn [implemented documented tight den ALPHA DIGIT] in H.
  destruct H as (l & Hl & -> & H). eapply Forall_impl, concat_chars in H as [H1 H2].
  - split; [eapply length_nil; eauto|exact H1].
  - cbv beta. intros a [[[(c & -> & Hc)|(c & -> & Hc)]|(c & -> & Hc)]|Hc].
    + exists c. split; auto. left. left. exact Hc.
    + exists c. split; auto. left. right. exact Hc.
    + exists c. split; auto. right. left. exact Hc.
    + exists 95%N. split; [|right; right; reflexivity]. change ("_"%string) with "_"%string in Hc.
      unfold same_text in Hc. apply (same_other _ _ Hc). reflexivity.
Qed.
Lemma digits_inv (L : rule -> str -> Prop) t s : den true L t (Plus DIGIT) s -> s <> [] /\ Forall (fun c => 48 <= c <= 57)%N s.
Proof.
  cbn [den DIGIT]. intros (l & Hl & -> & H). apply concat_chars in H as [H1 H2]. split; [eapply length_nil; eauto|exact H1].
Qed.
Lemma int_inv s : text_of true implemented Rint s -> exists neg ds, s = sign_of neg ++ ds /\ ds <> [] /\ Forall (fun c => 48 <= c <= 57)%N ds.
Proof.
  intros H. apply text_of_unfold in H. cbn [implemented documented tight] in H.
  destruct H as (x & w & y & -> & Hx & Hy & Hg). cbn in Hg. subst w. apply digits_inv in Hy as [Hn Hd].
  destruct Hx as [->|Hx]; [exists false, y; auto|]. exists true, y. repeat split; auto. cbn [app]. f_equal.
  apply (same_other _ _ Hx). reflexivity.
Qed.
Lemma float_inv s : text_of true implemented Rfloat s -> exists neg ds es, s = sign_of neg ++ ds ++ 46%N :: es /\ ds <> [] /\ es <> [] /\
  Forall (fun c => 48 <= c <= 57)%N ds /\ Forall (fun c => 48 <= c <= 57)%N es.
Proof.
  intros H. apply text_of_unfold in H. cbn [implemented documented tight] in H.
  destruct H as (x & w & y & -> & Hx & (x2 & w2 & y2 & -> & Hx2 & Hy & Hg2) & Hg). cbn in Hg, Hg2. subst w w2.
  apply digits_inv in Hy as [Hn Hd]. apply int_inv in Hx as (neg & ds & -> & Hm & Hs).
  exists neg, ds, y2. repeat split; auto. rewrite <- app_assoc. cbn [app]. do 2 f_equal.
  change (46%N :: y2) with ([46%N] ++ y2). f_equal. apply (same_other _ _ Hx2). reflexivity.
Qed.
Lemma string_inv s : text_of true implemented Rstring s -> exists body, s = 34%N :: body ++ [34%N] /\ Forall (fun c => 32 <= c /\ c <= 126 /\ c <> 34)%N body.
Proof.
  intros H. apply text_of_unfold in H. cbn [implemented documented tight] in H.
  destruct H as (x & w & y & -> & (q & -> & Hq) & (x2 & w2 & y2 & -> & (l & -> & Hl) & (q2 & -> & Hq2) & Hg2) & Hg).
  cbn in Hg, Hg2. subst w w2. exists (List.concat l). assert (q = 34 /\ q2 = 34)%N as [-> ->] by lia. split; auto.
  eapply Forall_impl, concat_chars in Hl as [H1 H2]; [exact H1|]. cbv beta.
  intros a [(c & -> & Hc)|(c & -> & Hc)]; exists c; split; auto; lia.
Qed.

Lemma decval_exists ds : Forall (fun c => 48 <= c <= 57)%N ds -> exists n, decval U ds n.
Proof.
  induction ds as [|c ds IH] using rev_ind; intros H; [exists 0%N; constructor|].
  apply Forall_app in H as [H Hc]. inversion Hc; subst. apply IH in H as (n & Hn).
  exists (10 * n + (c - 48))%N. apply dv_snoc; auto. unfold digit_val, asc.
  destruct (N.ltb_spec c 128), (N.leb_spec 48 c), (N.leb_spec c 57); cbn; auto; lia.
Qed.
Lemma digits_are ds : Forall (fun c => 48 <= c <= 57)%N ds -> Forall (digit U) ds.
Proof. intros H. eapply Forall_impl; [|exact H]. intros c Hc. now apply is_digit. Qed.

Lemma dot_digit k : not_starts (N.eqb 46) k -> not_starts (isdigit U) k -> not_starts (dot_or_digit U) k.
Proof. destruct k as [|c k]; cbn; auto. unfold dot_or_digit. intros H1 H2. rewrite H2, N.eqb_sym. exact H1. Qed.

Definition is_constant (ty : ttype) : Prop := ty = INT \/ ty = FLOAT \/ ty = STRING \/ ty = NULL.
Lemma atomic_lexeme s k : text_of true implemented Ratomic s -> after s k -> not_starts (isdigit U) k ->
  exists ty v, lexeme U s k ty v /\ is_constant ty.
Proof.
  intros H Ha Hk. apply text_of_unfold in H. cbn [implemented documented tight den] in H.
  pose proof (dot_digit _ (proj1 Ha) Hk) as Hd. unfold is_constant.
  destruct H as [[[H|H]|H]|H].
  - apply int_inv in H as (neg & ds & -> & Hn & H). destruct (decval_exists _ H) as (n & Hv).
    eexists _, _. split; [eapply lx_int; eauto; now apply digits_are|]. auto.
  - apply float_inv in H as (neg & ds & es & -> & Hn & Hm & H & He).
    destruct (decval_exists (ds ++ es)) as (n & Hv); [apply Forall_app; auto|].
    eexists _, _. split; [eapply lx_float; eauto; [now apply digits_are|now apply digits_are|]|auto].
    apply literal_rounds. reflexivity.
  - apply string_inv in H as (body & -> & H). eexists _, _. split; [eapply lx_string; eauto|]. auto.
  - eexists _, _. split; [eapply keyword_lexeme; [exact H| |exact Ha]; constructor|]. auto.
Qed.
Lemma att_inv r t s : implemented r = Seq (Txt t) (Ref Rid) -> tight r = true -> text_of true implemented r s ->
  exists x y, s = x ++ y /\ map lower_c x = map lower_c (lit t) /\ y <> [] /\ Forall name_char y.
Proof.
  intros Hr Ht H. apply text_of_unfold in H. rewrite Hr, Ht in H. destruct H as (x & w & y & -> & Hx & Hy & Hg).
  cbn in Hg. subst w. apply id_inv in Hy as [Hn Hy]. exists x, y. auto.
Qed.
Definition is_attribute (ty : ttype) : Prop := ty = USR_ATT \/ ty = OBJ_ATT \/ ty = ENV_ATT \/ ty = ADM_ATT \/ ty = CON_ATT.
Lemma att_lexeme s k : text_of true implemented Ratt_name s -> after s k -> exists ty v, lexeme U s k ty v /\ is_attribute ty.
Proof.
  intros H Ha. apply text_of_unfold in H. cbn [implemented documented tight den] in H.
  assert (M : forall r t cat ty, text_of true implemented r s -> implemented r = Seq (Txt t) (Ref Rid) -> tight r = true ->
    map lower_c (lit t) = cat ++ [46%N] -> lows cat = true -> category cat ty -> exists v, lexeme U s k ty v).
  { intros r t cat ty Hs Hr Ht Hc Hl Hy. destruct (att_inv r t s Hr Ht Hs) as (x & y & -> & Hx & Hn & Hm).
    rewrite Hc in Hx. apply map_eq_app in Hx as (a & b & -> & Hx1 & Hx2).
    apply same_other in Hx2; [|reflexivity]. subst b.
    pose proof (same_letters _ _ Hx1 Hl) as Hal.
    assert (A : is_ascii a = true) by (apply ascii_forall; eapply Forall_impl; [|exact Hal]; unfold alpha; cbn; lia).
    destruct a as [|c a]; [exfalso; subst cat; inversion Hy|]. destruct y as [|d y]; [congruence|].
    exists (TStr (d :: y)). eapply lx_attribute with (c := c) (s' := a) (cat := cat).
    - now rewrite <- app_assoc.
    - inversion Hal; subst. now apply is_alpha.
    - inversion Hal; subst. eapply Forall_impl; [|eassumption]. intros z Hz. left. now apply is_alpha.
    - eapply Forall_impl; [|exact Hm]. intros z Hz. apply id_is; auto. unfold name_char, alpha in Hz. lia.
    - unfold py_lower. now rewrite A.
    - exact Hy.
    - apply (proj2 Ha). exists [], (((c :: a) ++ [46%N]) ++ d :: y). split; auto. split.
      + apply Forall_app. split; [apply Forall_app; split|].
        * eapply Forall_impl; [|exact Hal]. intros z Hz. left. now left.
        * constructor; [now right|constructor].
        * eapply Forall_impl; [|exact Hm]. intros z Hz. now left.
      + apply Exists_app. left. apply Exists_app. left. inversion Hal; subst. now apply Exists_cons_hd. }
  unfold is_attribute.
  destruct H as [[[[H|H]|H]|H]|H].
  - destruct (M _ "user."%string (lit "user") USR_ATT H eq_refl eq_refl eq_refl eq_refl cat_user) as (v & Hl). exists USR_ATT, v. auto 7.
  - destruct (M _ "object."%string (lit "object") OBJ_ATT H eq_refl eq_refl eq_refl eq_refl cat_object) as (v & Hl). exists OBJ_ATT, v. auto 7.
  - destruct (M _ "env."%string (lit "env") ENV_ATT H eq_refl eq_refl eq_refl eq_refl cat_env) as (v & Hl). exists ENV_ATT, v. auto 7.
  - destruct (M _ "admin."%string (lit "admin") ADM_ATT H eq_refl eq_refl eq_refl eq_refl cat_admin) as (v & Hl). exists ADM_ATT, v. auto 7.
  - destruct (M _ "connect."%string (lit "connect") CON_ATT H eq_refl eq_refl eq_refl eq_refl cat_connect) as (v & Hl). exists CON_ATT, v. auto 7.
Qed.
Lemma boolean_lexeme s k : text_of true implemented Rboolean s -> after s k -> exists v, lexeme U s k BOOL v.
Proof.
  intros H Ha. apply text_of_unfold in H. cbn [implemented documented tight den] in H.
  destruct H as [[H|H]|H]; eexists; (eapply keyword_lexeme; [exact H| |exact Ha]); constructor.
Qed.

(** ** Phrases *)

(** [reads D P s]: followed by no character in [D] and by nothing that would carry it on,
    [s] is read as tokens with [P]. *)
Definition reads (D : N -> bool) (P : list token -> Prop) (s : str) : Prop :=
  forall k, after s k -> not_starts D k ->
  exists it tvs, s = layout it [] /\ segs it k tvs /\ tvs <> [] /\ forall u, map tv u = tvs -> P u.

Definition nochar (c : N) : bool := false.
Lemma reads_lexeme D s (F : ttype -> tokval -> Prop) (P : list token -> Prop) :
  (forall k, after s k -> not_starts D k -> exists ty v, lexeme U s k ty v /\ F ty v) ->
  (forall t, F (t_type t) (t_val t) -> P [t]) -> reads D P s.
Proof.
  intros H HP k Ha Hk. destruct (H k Ha Hk) as (ty & v & Hl & HF).
  exists [([], s)], [(ty, v)]. split; [cbn; now rewrite app_nil_r|]. split; [|split; [discriminate|]].
  - constructor; [constructor|exact Hl|constructor].
  - intros [|t [|t2 u]] E; try discriminate E. cbn in E. injection E as E1 E2. apply HP. now rewrite E1, E2.
Qed.
Lemma reads_impl D (P Q : list token -> Prop) s : reads D P s -> (forall u, P u -> Q u) -> reads D Q s.
Proof.
  intros H HQ k Ha Hk. destruct (H k Ha Hk) as (it & tvs & E & Hs & Hn & HP). exists it, tvs. repeat split; auto.
Qed.

Definition untok (x : ttype * tokval) : token := Tok (fst x) 0 (snd x).
Lemma untok_tv tvs : map tv (map untok tvs) = tvs.
Proof. rewrite map_map. rewrite <- (map_id tvs) at 2. apply map_ext. now intros [ty v]. Qed.

(** The lexemes of [D] do not start tokens of the types in [F]. *)
Definition avoids (D : N -> bool) (F : ttype -> Prop) : Prop :=
  (forall c, isspace U c = true -> D c = false) /\
  (forall s rest ty v c r, F ty -> lexeme U s rest ty v -> s = c :: r -> D c = false).
Lemma avoid_none F : avoids nochar F.
Proof. split; auto. Qed.
Lemma avoid_digit (F : ttype -> Prop) : ~ F INT -> ~ F FLOAT -> avoids (isdigit U) F.
Proof.
  intros H1 H2. split; [intros c Hc; now apply (space_digit U uok)|].
  intros s rest ty v c r HF Hl E. apply (lexeme_first U uok) in Hl as (c' & r' & E' & _ & _ & _ & _ & Hd & _).
  rewrite E in E'. injection E' as <- <-. destruct (isdigit U c); auto. destruct (Hd eq_refl) as [->| ->]; contradiction.
Qed.
Lemma avoid_eq (F : ttype -> Prop) : ~ F OP -> avoids (N.eqb 61) F.
Proof.
  intros H1. split; [intros c Hc; destruct (N.eqb_spec 61 c) as [<-|]; [discriminate Hc|auto]|].
  intros s rest ty v c r HF Hl E. apply (lexeme_first U uok) in Hl as (c' & r' & E' & _ & _ & _ & Hd & _).
  rewrite E in E'. injection E' as <- <-. destruct (N.eqb_spec 61 c) as [<-|]; auto. rewrite (Hd eq_refl) in HF. contradiction.
Qed.

Definition pre (w : str) (it : list (str * str)) : list (str * str) :=
  match it with (w', s) :: r => (w ++ w', s) :: r | [] => [] end.

Lemma reads_seq D1 D2 (P Q R : list token -> Prop) (F : ttype -> Prop) x w y :
  gap true false x w y -> is_ascii y = true -> reads D1 P x -> reads D2 Q y ->
  (forall u, Q u -> match u with t :: _ => F (t_type t) | [] => False end) -> avoids D1 F ->
  (forall u v, P u -> Q v -> R (u ++ v)) -> reads D2 R (x ++ w ++ y).
Proof.
  intros [Gw Gs] Ay Hx Hy HF [V1 V2] HR k Ha Hk.
  assert (Ak : after y k).
  { destruct Ha as [A1 A2]. split; auto. intros W. apply A2. rewrite app_assoc. now apply word_more. }
  destruct (Hy k Ak Hk) as (it2 & tvs2 & Ey & Hs2 & Hn2 & HQ).
  assert (Hf : exists w' s r ty v tl, it2 = (w', s) :: r /\ tvs2 = (ty, v) :: tl /\ F ty /\ blank U w' /\ lexeme U s (layout r k) ty v /\ segs r k tl).
  { pose proof (HF _ (HQ _ (untok_tv tvs2))) as HF'. destruct Hs2 as [|w' s it k ty v tl Hw Hl Hs2]; [congruence|].
    cbn in HF'. exists w', s, it, ty, v, tl. auto 8. }
  destruct Hf as (w' & s & r & ty & v & tl & -> & -> & Hty & Hw' & Hl & Hr).
  destruct (lexeme_first U uok _ _ _ _ Hl) as (c & s' & Es & Hsp & H46 & _).
  pose proof (blank_ws U _ Gw) as Hbw.
  assert (K : forall D, (forall c, isspace U c = true -> D c = false) -> (w ++ w' = [] -> D c = false) ->
    not_starts D (layout ((w ++ w', s) :: r) k)).
  { intros D HD Hc. cbn [layout]. destruct (w ++ w') as [|b ww] eqn:Ew.
    - rewrite Es. cbn. auto.
    - cbn. apply HD. assert (B : blank U (b :: ww)) by (rewrite <- Ew; apply Forall_app; auto). now inversion B. }
  destruct (Hx (layout ((w ++ w', s) :: r) k)) as (it1 & tvs1 & Ex & Hs1 & Hn1 & HP).
  - split.
    + apply K; [intros b Hb; destruct (N.eqb_spec 46 b) as [<-|]; [discriminate Hb|auto]|]. intros _. apply N.eqb_neq. auto.
    + intros W. apply K.
      * intros b Hb. unfold id_charb. rewrite (space_alpha U uok), (space_digit U uok) by auto.
        apply N.eqb_neq. intros ->. discriminate Hb.
      * intros E. apply app_eq_nil in E as [-> ->].
        destruct (id_charb U c) eqn:I; auto. exfalso. apply (Gs eq_refl W); auto.
        exists c, (s' ++ layout r []). rewrite Ey. cbn. rewrite Es. split; auto.
        apply (name_is U); auto. rewrite Ey in Ay. cbn in Ay. rewrite Es in Ay. cbn in Ay. now apply (ascii_cons c (s' ++ layout r [])) in Ay as [Ay _].
  - apply K; auto. intros _. eapply V2; eauto.
  - exists (it1 ++ (w ++ w', s) :: r), (tvs1 ++ (ty, v) :: tl). split; [|split; [|split]].
    + rewrite layout_app, layout_nil, <- Ex, Ey. cbn [layout]. now rewrite <- app_assoc.
    + apply segs_app; auto. constructor; auto. apply Forall_app; auto.
    + destruct tvs1; discriminate.
    + intros u E. apply map_eq_app in E as (u1 & u2 & -> & E1 & E2). apply HR; auto.
Qed.
(** Blanks in front. *)
Lemma reads_pre D P w y : Forall ws w -> reads D P y -> reads D P (w ++ y).
Proof.
  intros Hw H k [A1 A2] Hk. destruct (H k) as (it & tvs & E & Hs & Hn & HP); auto.
  { split; auto. intros W. apply A2. now apply word_more. }
  destruct Hs as [|w' s it k ty v tvs Hb Hl Hs]; [congruence|].
  exists ((w ++ w', s) :: it), ((ty, v) :: tvs). split; [|split; [|split]]; auto.
  - cbn. rewrite E. cbn. now rewrite !app_assoc.
  - constructor; auto. apply Forall_app. split; auto. now apply blank_ws.
Qed.

Notation isd := (isdigit U).
Lemma reads_txt t ty v s : same_text s t -> keyword (map lower_c (lit t)) ty v -> reads nochar (fun u => exists a, u = [a] /\ t_type a = ty /\ t_val a = TStr v) s.
Proof.
  intros Hs Hk. eapply reads_lexeme with (F := fun ty' v' => ty' = ty /\ v' = TStr v).
  - intros k Ha _. do 2 eexists. split; [eapply keyword_lexeme; eauto|auto].
  - intros a [H1 H2]. eauto.
Qed.
Lemma reads_symbol D t ty v s : same_text s t -> symbolic (lit t) ty v -> reads D (fun u => exists a, u = [a] /\ t_type a = ty) s.
Proof.
  intros Hs Hk. eapply reads_lexeme with (F := fun ty' v' => ty' = ty).
  - intros k Ha _. do 2 eexists. split; [eapply symbol_lexeme; eauto|auto].
  - intros a H1. eauto.
Qed.
Lemma reads_op s : text_of true implemented Rop s -> reads (N.eqb 61) (fun u => exists a, u = [a] /\ t_type a = OP) s.
Proof.
  intros Hs. eapply reads_lexeme with (F := fun ty' v' => ty' = OP).
  - intros k Ha Hk. destruct (op_lexeme s k Hs Ha Hk) as (v & Hl). eauto.
  - intros a H1. eauto.
Qed.
Lemma reads_atomic s : text_of true implemented Ratomic s -> reads isd (fun u => exists a, g_atomic u a) s.
Proof.
  intros Hs. eapply reads_lexeme with (F := fun ty' v' => is_constant ty').
  - intros k Ha Hk. exact (atomic_lexeme s k Hs Ha Hk).
  - intros a H1. unfold is_constant in H1. destruct H1 as [H1|[H1|[H1|H1]]]; eexists.
    + apply gc_int; auto.
    + apply gc_float; auto.
    + apply gc_string; auto.
    + apply gc_null; auto.
Qed.
Lemma reads_att s : text_of true implemented Ratt_name s -> reads isd (fun u => exists a, g_att u a) s.
Proof.
  intros Hs. eapply reads_lexeme with (F := fun ty' v' => is_attribute ty').
  - intros k Ha Hk. exact (att_lexeme s k Hs Ha).
  - intros a H1. unfold is_attribute in H1. destruct H1 as [H1|[H1|[H1|[H1|H1]]]]; eexists.
    + apply ga_user; auto.
    + apply ga_object; auto.
    + apply ga_env; auto.
    + apply ga_admin; auto.
    + apply ga_connect; auto.
Qed.
Lemma reads_boolvar s : text_of true implemented Rbool_var s -> reads isd (fun u => exists a, g_boolvar u a) s.
Proof.
  intros Hs. apply text_of_unfold in Hs. destruct Hs as [Hs|Hs].
  - eapply reads_lexeme with (F := fun ty' v' => ty' = BOOL).
    + intros k Ha Hk. destruct (boolean_lexeme s k Hs Ha) as (v & Hl). eauto.
    + intros a H1. eexists. now apply gb_bool.
  - eapply reads_impl; [now apply reads_att|]. intros u (a & Ha). eexists. now apply gb_att with (a := a).
Qed.

Lemma derived_text n r s : derived true implemented n r s -> text_of true implemented r s.
Proof. intros H. now exists n. Qed.
Lemma symbol_ascii s t : same_text s t -> is_ascii (lit t) = true -> is_ascii s = true.
Proof. intros H. apply ascii_lower in H. congruence. Qed.
Lemma gap_ascii x w y : gap true false x w y -> is_ascii w = true.
Proof. intros [H _]. now apply ascii_ws. Qed.

Ltac asc := repeat (apply ascii_app2; split); first
  [ eapply derived_ascii; eassumption | eapply impl_ascii; eassumption | eapply gap_ascii; eassumption
  | eapply symbol_ascii; [eassumption|reflexivity] ].

(** First tokens. *)
Definition firstly (F : ttype -> Prop) (u : list token) : Prop := match u with t :: _ => F (t_type t) | [] => False end.
Definition value_type (ty : ttype) : Prop := ty <> OP.
Lemma atomic_firstly u a : g_atomic u a -> firstly value_type u.
Proof. destruct 1; cbn; unfold value_type; rewrite H; discriminate. Qed.
Lemma att_firstly u a : g_att u a -> firstly value_type u.
Proof. destruct 1; cbn; unfold value_type; rewrite H; discriminate. Qed.
Lemma var_firstly u a : g_var u a -> firstly value_type u.
Proof.
  destruct 1 as [u a H|u a H|u a H]; [eapply atomic_firstly; eauto| |eapply att_firstly; eauto].
  destruct H as [lb rb H1|lb v l rb H1]; cbn; unfold value_type; rewrite H1; discriminate.
Qed.

Lemma reads_setval n : forall s, derived true implemented n Rsetval s -> reads isd (fun u => exists l, g_setval u l) s.
Proof.
  induction n as [|n IH]; intros s H; [contradiction|]. cbn [derived implemented documented tight] in H.
  destruct H as [H|(x & w & y & -> & Hx & (x2 & w2 & y2 & -> & Hx2 & Hy & G2) & G)].
  - eapply reads_impl; [apply reads_atomic; eapply derived_text; exact H|]. intros u (a & Ha). eexists. apply gsv_one. exact Ha.
  - eapply reads_seq with (F := fun ty => ty = COMMA) (Q := fun u => exists c v l, u = c :: v /\ t_type c = COMMA /\ g_setval v l).
    + exact G.
    + asc.
    + apply reads_atomic. eapply derived_text; exact Hx.
    + eapply reads_seq with (F := fun _ => True) (D1 := nochar).
      * exact G2.
      * asc.
      * eapply reads_symbol; [exact Hx2|constructor].
      * apply IH. exact Hy.
      * intros u (l & Hl). destruct u; [|exact I]. now apply setval_nonempty in Hl.
      * apply avoid_none.
      * intros u v (c & -> & Hc) (l & Hl). cbn. eauto 6.
    + intros u (c & v & l & -> & Hc & _). exact Hc.
    + apply avoid_digit; discriminate.
    + intros u v (a & Ha) (c & v' & l & -> & Hc & Hl). eexists. eapply gsv_more; eauto.
Qed.
Lemma reads_set s : text_of true implemented Rset s -> forall D, reads D (fun u => exists a, g_set u a) s.
Proof.
  intros Hs D. apply text_of_unfold in Hs. cbn [implemented documented tight] in Hs.
  destruct Hs as [(x & w & y & -> & Hx & Hy & G)|(x & w & y & -> & Hx & (x2 & w2 & y2 & -> & Hx2 & Hy & G2) & G)].
  - eapply reads_seq with (F := fun _ => True) (D1 := nochar) (Q := fun u => exists a, u = [a] /\ t_type a = RSET).
    + exact G.
    + asc.
    + eapply reads_symbol; [exact Hx|constructor].
    + eapply reads_symbol; [exact Hy|constructor].
    + intros u (c & -> & _). exact I.
    + apply avoid_none.
    + intros u v (a & -> & Ha) (b & -> & Hb). eexists. now apply gs_empty.
  - eapply reads_seq with (F := fun _ => True) (D1 := nochar) (Q := fun u => exists v l b, u = v ++ [b] /\ g_setval v l /\ t_type b = RSET).
    + exact G.
    + asc.
    + eapply reads_symbol; [exact Hx|constructor].
    + destruct Hx2 as (n & Hx2). eapply reads_seq with (F := fun ty => ty = RSET) (D1 := isd).
      * exact G2.
      * asc.
      * eapply reads_setval; exact Hx2.
      * eapply reads_symbol; [exact Hy|constructor].
      * intros u (c & -> & Hc). exact Hc.
      * apply avoid_digit; discriminate.
      * intros u v (l & Hl) (b & -> & Hb). eauto 6.
    + intros u (v & l & b & -> & _). now destruct v.
    + apply avoid_none.
    + intros u v (a & -> & Ha) (v' & l & b & -> & Hl & Hb). eexists. cbn. eapply gs_some; eauto.
Qed.
Lemma reads_var s : text_of true implemented Rvar s -> reads isd (fun u => exists a, g_var u a) s.
Proof.
  intros Hs. apply text_of_unfold in Hs. cbn [implemented documented tight den] in Hs. destruct Hs as [Hs|Hs].
  - apply text_of_unfold in Hs. cbn [implemented documented tight den] in Hs. destruct Hs as [Hs|Hs].
    + eapply reads_impl; [now apply reads_atomic|]. intros u (a & Ha). eexists. now apply gv_atomic with (a := a).
    + eapply reads_impl; [now apply reads_set|]. intros u (a & Ha). eexists. now apply gv_set with (a := a).
  - eapply reads_impl; [now apply reads_att|]. intros u (a & Ha). eexists. now apply gv_att with (a := a).
Qed.

(** [NOT] before something. *)
Lemma reads_opt (P : list token -> Prop) x w y : (x = [] \/ same_text x "NOT") -> gap true false x w y -> is_ascii y = true ->
  (forall u, P u -> u <> []) -> reads isd P y ->
  reads isd (fun u => P u \/ exists t v, u = t :: v /\ t_type t = NOT_OP /\ P v) (x ++ w ++ y).
Proof.
  intros [->|Hx] G Ay Hn Hy.
  - cbn [app]. apply reads_pre; [apply G|]. eapply reads_impl; [exact Hy|]. auto.
  - eapply reads_seq with (F := fun _ => True) (D1 := nochar).
    + exact G.
    + exact Ay.
    + eapply reads_txt; [exact Hx|constructor].
    + exact Hy.
    + intros u Hu. apply Hn in Hu. now destruct u.
    + apply avoid_none.
    + intros u v (a & -> & Ha & _) Hv. right. cbn. eauto.
Qed.

Lemma reads_phrases n :
  (forall s, derived true implemented n Rexp s -> reads isd (fun u => exists p, g_exp u p) s) /\
  (forall s, derived true implemented n Rterm s -> reads isd (fun u => exists p, g_term u p) s) /\
  (forall s, derived true implemented n Rpolicy s -> reads isd (fun u => exists p, g_policy u p) s).
Proof.
  destruct (writes_phrases U uok) as (NE & NT & NP).
  induction n as [|n (IHe & IHt & IHp)]; [repeat split; contradiction|]. split; [|split].
  - intros s H. cbn [derived implemented documented tight] in H.
    destruct H as [[(x & w & y & -> & Hx & (x2 & w2 & y2 & -> & Hx2 & Hy & G2) & G)|(x & w & y & -> & Hx & Hy & G)]|(x & w & y & -> & Hx & (x2 & w2 & y2 & -> & Hx2 & (x3 & w3 & y3 & -> & Hx3 & Hy & G3) & G2) & G)].
    + eapply reads_seq with (F := fun ty => ty = OP) (D1 := isd) (Q := fun u => exists o v r, u = o :: v /\ t_type o = OP /\ g_var v r).
      * exact G.
      * asc.
      * apply reads_var. eapply derived_text; exact Hx.
      * eapply reads_seq with (F := value_type) (D1 := N.eqb 61).
        -- exact G2.
        -- asc.
        -- apply reads_op. eapply derived_text; exact Hx2.
        -- apply reads_var. eapply derived_text; exact Hy.
        -- intros u (a & Ha). now apply var_firstly in Ha.
        -- apply avoid_eq. unfold value_type. auto.
        -- intros u v (o & -> & Ho) (r & Hr). cbn. eauto 6.
      * intros u (o & v & r & -> & Ho & _). exact Ho.
      * apply avoid_digit; discriminate.
      * intros u v (l & Hl) (o & v' & r & -> & Ho & Hr). eexists. eapply ge_op; eauto.
    + eapply reads_impl; [apply (reads_opt (fun u => exists a, g_boolvar u a)); [exact Hx|exact G| | |]|].
      * asc.
      * intros u (a & Ha). now apply boolvar_nonempty in Ha.
      * apply reads_boolvar. eapply derived_text; exact Hy.
      * cbv beta. intros u [(a & Ha)|(t & v & -> & Ht & (a & Ha))]; eexists; [now apply ge_bool with (b := a)|eapply ge_not_bool; eauto].
    + eapply reads_impl; [apply (reads_opt (fun u => exists lp v rp p, u = lp :: v ++ [rp] /\ t_type lp = LPARN /\ t_type rp = RPARN /\ g_policy v p)); [exact Hx|exact G| | |]|].
      * asc.
      * intros u (lp & v & rp & p & -> & _). discriminate.
      * eapply reads_seq with (F := fun _ => True) (D1 := nochar) (Q := fun u => exists v rp p, u = v ++ [rp] /\ t_type rp = RPARN /\ g_policy v p).
        -- exact G2.
        -- asc.
        -- eapply reads_symbol; [exact Hx2|constructor].
        -- eapply reads_seq with (F := fun ty => ty = RPARN) (D1 := isd).
           ++ exact G3.
           ++ asc.
           ++ apply IHp. exact Hx3.
           ++ eapply reads_symbol; [exact Hy|constructor].
           ++ intros u (c & -> & Hc). exact Hc.
           ++ apply avoid_digit; discriminate.
           ++ intros u v (p & Hp) (b & -> & Hb). eauto 6.
        -- intros u (v & rp & p & -> & _). now destruct v.
        -- apply avoid_none.
        -- intros u v (a & -> & Ha) (v' & rp & p & -> & Hr & Hp). cbn. exists a, v', rp, p. auto.
      * cbv beta. intros u [(lp & v & rp & p & -> & H1 & H2 & Hp)|(t & v & -> & Ht & (lp & v' & rp & p & -> & H1 & H2 & Hp))]; eexists;
        [eapply ge_paren; eauto|eapply ge_not_paren; eauto].
  - intros s H. cbn [derived implemented documented tight] in H.
    destruct H as [(x & w & y & -> & Hx & (x2 & w2 & y2 & -> & Hx2 & Hy & G2) & G)|H].
    + eapply reads_seq with (F := fun ty => ty = BOOL_OP) (D1 := isd) (Q := fun u => exists a v r, u = a :: v /\ is_word BOOL_OP "AND" a /\ g_exp v r).
      * exact G.
      * asc.
      * apply IHt. exact Hx.
      * eapply reads_seq with (F := fun _ => True) (D1 := nochar).
        -- exact G2.
        -- asc.
        -- eapply reads_txt; [exact Hx2|constructor].
        -- apply IHe. exact Hy.
        -- intros u (p & Hp). apply NE in Hp as [Hp _]. now destruct u.
        -- apply avoid_none.
        -- intros u v (a & -> & Ha & Hv) (p & Hp). cbn. exists a, v, p. unfold is_word. auto.
      * intros u (a & v & r & -> & [Ha _] & _). exact Ha.
      * apply avoid_digit; discriminate.
      * intros u v (l & Hl) (a & v' & r & -> & Ha & Hr). eexists. eapply gt_and; eauto.
    + eapply reads_impl; [apply IHe; exact H|]. intros u (p & Hp). eexists. now apply gt_exp with (e := p).
  - intros s H. cbn [derived implemented documented tight] in H.
    destruct H as [(x & w & y & -> & Hx & (x2 & w2 & y2 & -> & Hx2 & Hy & G2) & G)|H].
    + eapply reads_seq with (F := fun ty => ty = BOOL_OP) (D1 := isd) (Q := fun u => exists a v r, u = a :: v /\ is_word BOOL_OP "OR" a /\ g_term v r).
      * exact G.
      * asc.
      * apply IHp. exact Hx.
      * eapply reads_seq with (F := fun _ => True) (D1 := nochar).
        -- exact G2.
        -- asc.
        -- eapply reads_txt; [exact Hx2|constructor].
        -- apply IHt. exact Hy.
        -- intros u (p & Hp). apply NT in Hp as [Hp _]. now destruct u.
        -- apply avoid_none.
        -- intros u v (a & -> & Ha & Hv) (p & Hp). cbn. exists a, v, p. unfold is_word. auto.
      * intros u (a & v & r & -> & [Ha _] & _). exact Ha.
      * apply avoid_digit; discriminate.
      * intros u v (l & Hl) (a & v' & r & -> & Ha & Hr). eexists. eapply gp_or; eauto.
    + eapply reads_impl; [apply IHt; exact H|]. intros u (p & Hp). eexists. now apply gp_term with (e := p).
Qed.
End WithUnicode.
