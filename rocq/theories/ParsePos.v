(** * ParsePos: where a ParserError points (C11) *)

From Coq Require Import NArith ZArith List Bool Lia String.
From Verif Require Import PyBase PyNum Lexer LexSpec LexProofs LexProofs2 LexCase LexProps Values Ast Parser Grammar ParseProofs ParseProofs2 ParseProps.
Import ListNotations.
Open Scope Z_scope.

Section WithUnicode.
Variable U : unicode.

(** ** Two runs on lists with a common beginning *)

(** Run one reads [s], run two reads [s']: the same tokens, all of them in the common beginning
    [c], or both at least the whole of [c]. *)
Definition within (c ts ts' r r' : list token) : Prop :=
  exists s s', ts = s ++ r /\ ts' = s' ++ r' /\
  ((s = s' /\ exists c1, c = s ++ c1) \/
   ((List.length c <= List.length s)%nat /\ (List.length c <= List.length s')%nat)).

Lemma within_past c ts ts' r r' s s' : ts = s ++ r -> ts' = s' ++ r' ->
  (List.length c <= List.length s)%nat -> (List.length c <= List.length s')%nat -> within c ts ts' r r'.
Proof. intros. exists s, s'. auto. Qed.
Lemma within_same c v v' s c1 r r' : c = s ++ c1 -> r = c1 ++ v -> r' = c1 ++ v' -> within c (c ++ v) (c ++ v') r r'.
Proof. intros -> -> ->. exists s, s. rewrite <- !app_assoc. repeat split; auto. left. eauto. Qed.

Lemma within_seq c v v' r r' q q' x x' :
  within c (c ++ v) (c ++ v') r r' -> r = x ++ q -> r' = x' ++ q' ->
  (forall c1, r = c1 ++ v -> r' = c1 ++ v' -> within c1 r r' q q') ->
  within c (c ++ v) (c ++ v') q q'.
Proof.
  intros (s & s' & E & E' & D) Hr Hr' H. destruct D as [(<- & c1 & ->)|(L & L')].
  - rewrite <- app_assoc in E, E'. apply app_inv_head in E, E'. symmetry in E, E'.
    destruct (H c1 E E') as (t & t' & Et & Et' & D). exists (s ++ t), (s ++ t').
    rewrite <- !app_assoc, <- Et, <- Et', E, E'. repeat split; auto.
    destruct D as [(<- & c2 & ->)|(L & L')].
    + left. split; auto. exists c2. now rewrite app_assoc.
    + right. rewrite !app_length. lia.
  - exists (s ++ x), (s' ++ x'). rewrite E, E', Hr, Hr', <- !app_assoc. repeat split; auto.
    right. rewrite !app_length. lia.
Qed.

Lemma within_cons t c v v' r r' s s' : v = s ++ r -> v' = s' ++ r' ->
  (forall c1 v1 v1', c = t :: c1 -> v = c1 ++ v1 -> v' = c1 ++ v1' -> within c1 v v' r r') ->
  forall w w', t :: v = c ++ w -> t :: v' = c ++ w' -> within c (t :: v) (t :: v') r r'.
Proof.
  intros E E' H w w' Hw Hw'. destruct c as [|x c1].
  - apply (within_past _ _ _ _ _ (t :: s) (t :: s')); cbn; try lia; congruence.
  - cbn in Hw, Hw'. injection Hw as <- Hw. injection Hw' as Hw'.
    destruct (H c1 w w' eq_refl Hw Hw') as (y & y' & Ey & Ey' & D). exists (t :: y), (t :: y').
    cbn. rewrite <- Ey, <- Ey'. repeat split; auto. destruct D as [(<- & c2 & ->)|(L & L')]; [left|right; lia].
    split; auto. exists c2. reflexivity.
Qed.

(** ** What is left is an end of what was there *)
Definition suffix (ts r : list token) : Prop := exists s, ts = s ++ r.
Lemma suffix_refl ts : suffix ts ts.
Proof. now exists []. Qed.
Lemma suffix_trans a b c : suffix a b -> suffix b c -> suffix a c.
Proof. intros (s & ->) (t & ->). exists (s ++ t). now rewrite app_assoc. Qed.
Lemma suffix_cons t a b : suffix a b -> suffix (t :: a) b.
Proof. intros (s & ->). now exists (t :: s). Qed.

Lemma loops_suffix f :
  (forall a0 ts n a r m, term_loop U f a0 ts n = Ok (a, r, m) -> suffix ts r) /\
  (forall a0 ts n a r m, policy_loop U f a0 ts n = Ok (a, r, m) -> suffix ts r).
Proof.
  induction f as [|f (IHt & IHp)]; [split; discriminate|]. split; intros a0 ts n a r m.
  - cbn [term_loop]. destruct ts as [|t ts]; [discriminate|]. cbn [cur bind tl].
    destruct (is_bool_op "AND" t); [|intros [= <- <- <-]; apply suffix_refl]. intros H.
    apply bind_ok in H as ([[e ts1] n1] & He & H). apply bind_ok in H as ([nd n2] & _ & H).
    apply rules_sound in He as (u & p & -> & _). apply IHt in H as (s & ->).
    exists (t :: u ++ s). cbn. now rewrite app_assoc.
  - cbn [policy_loop]. destruct ts as [|t ts]; [discriminate|]. cbn [cur bind tl].
    destruct (is_bool_op "OR" t); [|intros [= <- <- <-]; apply suffix_refl]. intros H.
    apply bind_ok in H as ([[e ts1] n1] & He & H). apply bind_ok in H as ([nd n2] & _ & H).
    apply rules_sound in He as (u & p & -> & _). apply IHp in H as (s & ->).
    exists (t :: u ++ s). cbn. now rewrite app_assoc.
Qed.

(** ** Successful runs *)

Lemma bool_var_len u p : g_boolvar u p -> List.length u = 1%nat.
Proof. intros H. apply g_boolvar_head in H as (t & -> & _). reflexivity. Qed.

Lemma bool_var_within ts n a r m ts' n' a' r' m' c v v' :
  bool_var_rule U ts n = Ok (a, r, m) -> bool_var_rule U ts' n' = Ok (a', r', m') ->
  ts = c ++ v -> ts' = c ++ v' -> within c ts ts' r r'.
Proof.
  intros H H' -> ->. apply bool_var_rule_ok in H as (u & p & Hu & Hg & _). apply bool_var_rule_ok in H' as (u' & p' & Hu' & Hg' & _).
  apply bool_var_len in Hg, Hg'. destruct u as [|x [|? ?]]; try discriminate. destruct u' as [|x' [|? ?]]; try discriminate.
  destruct c as [|y c]; [apply (within_past _ _ _ _ _ [x] [x']); cbn; auto; lia|].
  cbn in Hu, Hu'. injection Hu as -> <-. injection Hu' as -> <-.
  exists [x'], [x']. repeat split. left. split; auto. now exists c.
Qed.

Lemma var_within ts n a r m ts' n' a' r' m' c v v' :
  var_rule U ts n = Ok (a, r, m) -> var_rule U ts' n' = Ok (a', r', m') ->
  ts = c ++ v -> ts' = c ++ v' -> within c ts ts' r r'.
Proof.
  intros H H' -> ->.
  pose proof H as K. pose proof H' as K'.
  apply var_rule_ok in H as (u & p & Hu & Hg & Hb). apply var_rule_ok in H' as (u' & p' & Hu' & Hg' & Hb').
  destruct (app_eq_app _ _ _ _ Hu) as (l & [[Hc Hr]|[Hc Hr]]).
  { subst c. rewrite <- app_assoc in K', Hu'. rewrite (var_rule_run U _ _ _ _ Hg) in K'.
    unfold lift in K'. apply bind_ok in K' as ([a2 n2] & _ & [= _ <- _]).
    apply (within_same _ _ _ u l); auto. }
  destruct (app_eq_app _ _ _ _ Hu') as (l' & [[Hc' Hr']|[Hc' Hr']]).
  { rewrite Hc' in K. rewrite <- app_assoc in K. rewrite (var_rule_run U _ _ _ _ Hg') in K.
    unfold lift in K. apply bind_ok in K as ([a2 n2] & _ & K). injection K as _ K _.
    apply (within_same _ _ _ u' l'); auto. }
  apply (within_past _ _ _ _ _ u u'); auto; subst u u'; rewrite app_length; lia.
Qed.

Lemma eat_within ty ts x r ts' x' r' c v v' :
  eat ty ts = Ok (x, r) -> eat ty ts' = Ok (x', r') -> ts = c ++ v -> ts' = c ++ v' -> within c ts ts' r r'.
Proof.
  intros H H' E E'. apply eat_ok in H as [-> _]. apply eat_ok in H' as [-> _].
  destruct c as [|y c]; [apply (within_past _ _ _ _ _ [x] [x']); cbn; auto; lia|].
  cbn in E, E'. injection E as -> ->. injection E' as -> ->.
  exists [y], [y]. repeat split. left. split; auto. now exists c.
Qed.

Lemma rules_within f :
  (forall ts n a r m, exp_rule U f ts n = Ok (a, r, m) ->
     forall f' ts' n' a' r' m' c v v', exp_rule U f' ts' n' = Ok (a', r', m') -> ts = c ++ v -> ts' = c ++ v' -> within c ts ts' r r') /\
  (forall a0 ts n a r m, term_loop U f a0 ts n = Ok (a, r, m) ->
     forall f' a0' ts' n' a' r' m' c v v', term_loop U f' a0' ts' n' = Ok (a', r', m') -> ts = c ++ v -> ts' = c ++ v' -> within c ts ts' r r') /\
  (forall ts n a r m, term_rule U f ts n = Ok (a, r, m) ->
     forall f' ts' n' a' r' m' c v v', term_rule U f' ts' n' = Ok (a', r', m') -> ts = c ++ v -> ts' = c ++ v' -> within c ts ts' r r') /\
  (forall a0 ts n a r m, policy_loop U f a0 ts n = Ok (a, r, m) ->
     forall f' a0' ts' n' a' r' m' c v v', policy_loop U f' a0' ts' n' = Ok (a', r', m') -> ts = c ++ v -> ts' = c ++ v' -> within c ts ts' r r') /\
  (forall ts n a r m, policy_rule U f ts n = Ok (a, r, m) ->
     forall f' ts' n' a' r' m' c v v', policy_rule U f' ts' n' = Ok (a', r', m') -> ts = c ++ v -> ts' = c ++ v' -> within c ts ts' r r').
Proof.
  induction f as [|f (IHe & IHtl & IHt & IHpl & IHp)]; [repeat split; discriminate|].
  assert (Paren : forall f' ts n s r m ts' n' s' r' m' c v v',
    ('(s, ts2, n1) <- policy_rule U f ts n ;; '(_, ts3) <- eat RPARN ts2 ;; Ok (s, ts3, n1)) = Ok (s, r, m) ->
    ('(s, ts2, n1) <- policy_rule U f' ts' n' ;; '(_, ts3) <- eat RPARN ts2 ;; Ok (s, ts3, n1)) = Ok (s', r', m') ->
    ts = c ++ v -> ts' = c ++ v' -> within c ts ts' r r').
  { intros f' ts n s r m ts' n' s' r' m' c v v' H H' -> ->.
    apply bind_ok in H as ([[s1 ts2] n1] & H1 & H). apply bind_ok in H as ([rp ts3] & H2 & [= <- <- <-]).
    apply bind_ok in H' as ([[s1' ts2'] n1'] & H1' & H'). apply bind_ok in H' as ([rp' ts3'] & H2' & [= <- <- <-]).
    pose proof H2 as K. pose proof H2' as K'. apply eat_ok in K as [Hk _]. apply eat_ok in K' as [Hk' _].
    apply (within_seq c v v' ts2 ts2' ts3 ts3' [rp] [rp']); auto.
    - eapply IHp; eauto.
    - intros c1 E E'. eapply eat_within; eauto. }
  assert (Suf : forall f ts n s r m, 
    ('(s, ts2, n1) <- policy_rule U f ts n ;; '(_, ts3) <- eat RPARN ts2 ;; Ok (s, ts3, n1)) = Ok (s, r, m) -> suffix ts r).
  { intros f0 ts n s r m H. apply bind_ok in H as ([[s1 ts2] n1] & H1 & H). apply bind_ok in H as ([rp ts3] & H2 & [= <- <- <-]).
    apply rules_sound in H1 as (u & p & -> & _). apply eat_ok in H2 as [-> _]. exists (u ++ [rp]). now rewrite <- app_assoc. }
  assert (BSuf : forall ts n a r m, bool_var_rule U ts n = Ok (a, r, m) -> suffix ts r).
  { intros ts n a r m H. apply bool_var_rule_ok in H as (u & p & -> & _). now exists u. }
  repeat split.
  - intros ts n a r m H f' ts' n' a' r' m' c v v' H' E E'.
    destruct f' as [|f']; [discriminate|].
    destruct c as [|t c].
    { apply rules_sound in H as (u & p & Hu & _), H' as (u' & p' & Hu' & _).
      apply (within_past _ _ _ _ _ u u'); cbn; auto; lia. }
    cbn in E, E'. subst ts ts'. cbn [exp_rule cur bind tl] in H, H'. cbv zeta in H, H'.
    destruct (ttype_eqb (t_type t) NOT_OP).
    { apply bind_ok in H as (t1 & Ht1 & H). apply bind_ok in H' as (t1' & Ht1' & H').
      apply bind_ok in H as ([[sub ts2] n1] & H1 & H). apply bind_ok in H as ([nd n2] & _ & [= <- <- <-]).
      apply bind_ok in H' as ([[sub' ts2'] n1'] & H1' & H'). apply bind_ok in H' as ([nd' n2'] & _ & [= <- <- <-]).
      assert (S1 : suffix (c ++ v) ts2).
      { destruct (ttype_eqb (t_type t1) LPARN); [|now apply BSuf in H1]. apply Suf in H1.
        destruct (c ++ v); [discriminate|]. now apply suffix_cons. }
      assert (S1' : suffix (c ++ v') ts2').
      { destruct (ttype_eqb (t_type t1') LPARN); [|now apply BSuf in H1']. apply Suf in H1'.
        destruct (c ++ v'); [discriminate|]. now apply suffix_cons. }
      destruct S1 as (s & Es), S1' as (s' & Es').
      apply (within_cons t (t :: c) _ _ _ _ s s' Es Es') with (w := v) (w' := v'); auto.
      intros c1 v1 v1' [= <-] Ev Ev'. destruct c as [|t2 c].
      { apply (within_past _ _ _ _ _ s s'); cbn; auto; lia. }
      cbn in Ht1, Ht1'. injection Ht1 as <-. injection Ht1' as <-.
      destruct (ttype_eqb (t_type t2) LPARN) eqn:El.
      - cbn [app tl] in H1, H1'. pose proof (Suf _ _ _ _ _ _ H1) as (x & Ex). pose proof (Suf _ _ _ _ _ _ H1') as (x' & Ex').
        cbn [app]. apply (within_cons t2 (t2 :: c) _ _ _ _ x x' Ex Ex') with (w := v) (w' := v'); auto.
        intros c1 w1 w1' [= <-] _ _. eapply Paren; eauto.
      - eapply bool_var_within; eauto. }
    destruct (ttype_eqb (t_type t) LPARN).
    { pose proof (Suf _ _ _ _ _ _ H) as (x & Ex). pose proof (Suf _ _ _ _ _ _ H') as (x' & Ex').
      apply (within_cons t (t :: c) _ _ _ _ x x' Ex Ex') with (w := v) (w' := v'); auto.
      intros c1 w1 w1' [= <-] _ _. eapply Paren; eauto. }
    assert (Var : forall ts n a r m,
      ('(l, ts1, n1) <- var_rule U ts n ;; '(o, ts2) <- eat OP ts1 ;; '(r, ts3, n2) <- var_rule U ts2 n1 ;;
       '(nd, n3) <- mk_node U COp o [l; r] n2 ;; Ok (nd, ts3, n3)) = Ok (a, r, m) ->
      exists l ts1 n1 o ts2 r1 n2, var_rule U ts n = Ok (l, ts1, n1) /\ eat OP ts1 = Ok (o, ts2) /\ var_rule U ts2 n1 = Ok (r1, r, n2) /\
        (exists s, ts1 = s ++ r) /\ (exists s, ts2 = s ++ r) /\ exists s, ts = s ++ r /\ (1 <= List.length s)%nat).
    { clear. intros ts n a r m H. apply bind_ok in H as ([[l ts1] n1] & H1 & H). apply bind_ok in H as ([o ts2] & H2 & H).
      apply bind_ok in H as ([[r1 ts3] n2] & H3 & H). apply bind_ok in H as ([nd n3] & _ & [= <- <- <-]).
      exists l, ts1, n1, o, ts2, r1, n2. apply var_rule_ok in H1 as K1. apply var_rule_ok in H3 as K3. apply eat_ok in H2 as K2.
      destruct K1 as (u & p & E1 & _). destruct K3 as (w & q & E3 & _). destruct K2 as [E2 _].
      repeat split; auto; [exists (o :: w)|exists w|exists (u ++ o :: w)]; subst; auto.
      rewrite <- app_assoc. split; auto. rewrite app_length. cbn. lia. }
    assert (One : forall ts n a r m, bool_var_rule U ts n = Ok (a, r, m) -> exists s, ts = s ++ r /\ (1 <= List.length s)%nat).
    { clear. intros ts n a r m H. apply bool_var_rule_ok in H as (u & p & -> & Hg & _). exists u. split; auto.
      apply bool_var_len in Hg. lia. }
    apply bind_ok in H as (g & Hg & H). apply bind_ok in H' as (g' & Hg' & H').
    assert (D : c = [] \/ g = g').
    { destruct c as [|t2 c]; auto. right. unfold starts_op in Hg, Hg'. cbn [app cur bind peek] in Hg, Hg'.
      destruct (ttype_eqb (t_type t) LSET); congruence. }
    destruct D as [-> | <-].
    { assert (exists s, t :: [] ++ v = s ++ r /\ (1 <= List.length s)%nat) as (s & Es & Ls).
      { destruct g; [|destruct (_ || _); [|discriminate]; now apply One in H].
        apply Var in H as (? & ? & ? & ? & ? & ? & ? & _ & _ & _ & _ & _ & H). exact H. }
      assert (exists s, t :: [] ++ v' = s ++ r' /\ (1 <= List.length s)%nat) as (s' & Es' & Ls').
      { destruct g'; [|destruct (_ || _); [|discriminate]; now apply One in H'].
        apply Var in H' as (? & ? & ? & ? & ? & ? & ? & _ & _ & _ & _ & _ & H'). exact H'. }
      apply (within_past _ _ _ _ _ s s'); auto. }
    destruct g.
    + apply Var in H as (l & ts1 & n1 & o & ts2 & r1 & n2 & H1 & H2 & H3 & (x1 & X1) & (x2 & X2) & _).
      apply Var in H' as (l' & ts1' & n1' & o' & ts2' & r1' & n2' & H1' & H2' & H3' & (x1' & X1') & (x2' & X2') & _).
      change (t :: c ++ v) with ((t :: c) ++ v) in *. change (t :: c ++ v') with ((t :: c) ++ v') in *.
      apply (within_seq (t :: c) v v' ts1 ts1' r r' x1 x1'); auto; [eapply var_within; eauto|].
      intros c1 E E'. rewrite E, E'. apply (within_seq c1 v v' ts2 ts2' r r' x2 x2'); auto.
      * rewrite <- E, <- E'. eapply eat_within; eauto.
      * intros c2 F F'. eapply var_within; eauto.
    + destruct (_ || _); [|discriminate].
      change (t :: c ++ v) with ((t :: c) ++ v) in *. change (t :: c ++ v') with ((t :: c) ++ v') in *.
      eapply bool_var_within; eauto.
  - intros a0 ts n a r m H f' a0' ts' n' a' r' m' c v v' H' E E'.
    pose proof H as K. apply loops_suffix in K as (s & Es). pose proof H' as K'. apply loops_suffix in K' as (s' & Es').
    destruct c as [|t c]; [apply (within_past _ _ _ _ _ s s'); cbn; auto; lia|].
    destruct f' as [|f']; [discriminate|].
    cbn in E, E'. subst ts ts'. cbn [term_loop cur bind tl] in H, H'.
    destruct (is_bool_op "AND" t).
    + apply bind_ok in H as ([[e ts1] n1] & H1 & H). apply bind_ok in H as ([nd n2] & _ & H).
      apply bind_ok in H' as ([[e' ts1'] n1'] & H1' & H'). apply bind_ok in H' as ([nd' n2'] & _ & H').
      pose proof H as K. apply loops_suffix in K as (x & Ex). pose proof H' as K'. apply loops_suffix in K' as (x' & Ex').
      pose proof H1 as K1. apply rules_sound in K1 as (u & p & Eu & _). pose proof H1' as K1'. apply rules_sound in K1' as (u' & p' & Eu' & _).
      apply (within_cons t (t :: c) _ _ _ _ (u ++ x) (u' ++ x')) with (w := v) (w' := v'); auto;
        try (rewrite Eu, Ex, <- app_assoc; reflexivity); try (rewrite Eu', Ex', <- app_assoc; reflexivity).
      intros c1 w1 w1' [= <-] _ _. apply (within_seq c v v' ts1 ts1' r r' x x'); auto; [eapply IHe; eauto|].
      intros c1 E E'. eapply IHtl; eauto.
    + injection H as <- <- <-. injection H' as <- <- <-. exists [], []. repeat split. left. split; auto. now exists (t :: c).
  - intros ts n a r m H f' ts' n' a' r' m' c v v' H' E E'. subst ts ts'.
    destruct f' as [|f']; [discriminate|]. cbn [term_rule] in H, H'.
    apply bind_ok in H as ([[e ts1] n1] & H1 & H). apply bind_ok in H' as ([[e' ts1'] n1'] & H1' & H').
    pose proof H as K. apply loops_suffix in K as (x & Ex). pose proof H' as K'. apply loops_suffix in K' as (x' & Ex').
    apply (within_seq c v v' ts1 ts1' r r' x x'); auto; [eapply IHe; eauto|].
    intros c1 E E'. eapply IHtl; eauto.
  - intros a0 ts n a r m H f' a0' ts' n' a' r' m' c v v' H' E E'.
    pose proof H as K. apply loops_suffix in K as (s & Es). pose proof H' as K'. apply loops_suffix in K' as (s' & Es').
    destruct c as [|t c]; [apply (within_past _ _ _ _ _ s s'); cbn; auto; lia|].
    destruct f' as [|f']; [discriminate|].
    cbn in E, E'. subst ts ts'. cbn [policy_loop cur bind tl] in H, H'.
    destruct (is_bool_op "OR" t).
    + apply bind_ok in H as ([[e ts1] n1] & H1 & H). apply bind_ok in H as ([nd n2] & _ & H).
      apply bind_ok in H' as ([[e' ts1'] n1'] & H1' & H'). apply bind_ok in H' as ([nd' n2'] & _ & H').
      pose proof H as K. apply loops_suffix in K as (x & Ex). pose proof H' as K'. apply loops_suffix in K' as (x' & Ex').
      pose proof H1 as K1. apply rules_sound in K1 as (u & p & Eu & _). pose proof H1' as K1'. apply rules_sound in K1' as (u' & p' & Eu' & _).
      apply (within_cons t (t :: c) _ _ _ _ (u ++ x) (u' ++ x')) with (w := v) (w' := v'); auto;
        try (rewrite Eu, Ex, <- app_assoc; reflexivity); try (rewrite Eu', Ex', <- app_assoc; reflexivity).
      intros c1 w1 w1' [= <-] _ _. apply (within_seq c v v' ts1 ts1' r r' x x'); auto; [eapply IHt; eauto|].
      intros c1 E E'. eapply IHpl; eauto.
    + injection H as <- <- <-. injection H' as <- <- <-. exists [], []. repeat split. left. split; auto. now exists (t :: c).
  - intros ts n a r m H f' ts' n' a' r' m' c v v' H' E E'. subst ts ts'.
    destruct f' as [|f']; [discriminate|]. cbn [policy_rule] in H, H'.
    apply bind_ok in H as ([[e ts1] n1] & H1 & H). apply bind_ok in H' as ([[e' ts1'] n1'] & H1' & H').
    pose proof H as K. apply loops_suffix in K as (x & Ex). pose proof H' as K'. apply loops_suffix in K' as (x' & Ex').
    apply (within_seq c v v' ts1 ts1' r r' x x'); auto; [eapply IHt; eauto|].
    intros c1 E E'. eapply IHpl; eauto.
Qed.

(** ** Failing runs *)

(** No list that agrees with [ts] beyond [u] and the token after it is accepted. *)
Definition stuck (acc : list token -> Prop) (ts u : list token) : Prop :=
  forall c v v', ts = c ++ v -> acc (c ++ v') -> (List.length c <= List.length u)%nat.
Definition blamed (V acc PRE : list token -> Prop) (ts : list token) (p : Z) : Prop :=
  exists u x w, ts = u ++ x :: w /\ p = t_pos x /\ V u /\
  (stuck acc ts u \/ (is_atomic x = true /\ PRE u /\ exists y w0, w = y :: w0 /\ t_type y <> OP)).
Definition nowhere (_ : list token) : Prop := False.

Lemma blame_seq (V acc PRE V2 acc2 PRE2 : list token -> Prop) ts s r p :
  blamed V2 acc2 PRE2 r p -> ts = s ++ r ->
  (forall u, V2 u -> V (s ++ u)) -> (forall u, PRE2 u -> PRE (s ++ u)) ->
  (forall c v v', ts = c ++ v -> acc (c ++ v') ->
     (List.length c <= List.length s)%nat \/ exists c1, c = s ++ c1 /\ acc2 (c1 ++ v')) ->
  blamed V acc PRE ts p.
Proof.
  intros (u & x & w & -> & -> & HV & D) -> H1 H2 H3. exists (s ++ u), x, w.
  rewrite <- app_assoc. repeat split; auto. destruct D as [St|(Ha & Hp & Hy)]; [left|right; auto].
  intros c v v' E Hacc. destruct (H3 c v v' E Hacc) as [L|(c1 & -> & A)]; rewrite app_length; [lia|].
  rewrite <- app_assoc in E. apply app_inv_head in E. specialize (St c1 v v' E A). rewrite app_length. lia.
Qed.

(** The first token is to blame. *)
Lemma blame_here (V acc PRE : list token -> Prop) t r :
  V [] -> (forall c v', ~ acc (t :: c ++ v')) -> blamed V acc PRE (t :: r) (t_pos t).
Proof.
  intros HV Ha. exists [], t, r. repeat split; auto. left. intros [|y c] v v' E A; [auto|].
  cbn in E. injection E as <- _. now apply Ha in A.
Qed.

Definition acc_tail (ts : list token) : Prop := exists f n l r m, set_loop U f ts n = Ok (l, r, m).
Definition acc_set (ts : list token) : Prop := exists n a r m, set_rule U ts n = Ok (a, r, m).
Definition acc_var (ts : list token) : Prop := exists n a r m, var_rule U ts n = Ok (a, r, m).
Definition acc_exp (ts : list token) : Prop := exists f n a r m, exp_rule U f ts n = Ok (a, r, m).
Definition acc_tloop (ts : list token) : Prop := exists f a0 n a r m, term_loop U f a0 ts n = Ok (a, r, m).
Definition acc_term (ts : list token) : Prop := exists f n a r m, term_rule U f ts n = Ok (a, r, m).
Definition acc_ploop (ts : list token) : Prop := exists f a0 n a r m, policy_loop U f a0 ts n = Ok (a, r, m).
Definition acc_policy (ts : list token) : Prop := exists f n a r m, policy_rule U f ts n = Ok (a, r, m).

Definition begins (G : list token -> ptree -> Prop) (u : list token) : Prop := exists w q, G (u ++ w) q.
Definition begins_tail (u : list token) : Prop := exists w q, g_tail (u ++ w) q.

Lemma mk_node_parser c t k n p : mk_node U c t k n = Err (EParser p) -> False.
Proof. intros H. apply mk_node_err in H. discriminate. Qed.

Lemma atomic_rule_parser ts n p : atomic_rule U ts n = Err (EParser p) ->
  exists t r, ts = t :: r /\ p = t_pos t /\ is_atomic t = false.
Proof.
  unfold atomic_rule. destruct ts as [|t r]; [discriminate|]. cbn [cur bind]. intros H. exists t, r. unfold is_atomic.
  destruct (t_type t); cbn in H; try discriminate; injection H as <-; auto.
Qed.
Lemma atomic_rule_acc t r n a r' m : atomic_rule U (t :: r) n = Ok (a, r', m) -> is_atomic t = true /\ r' = r.
Proof.
  unfold atomic_rule, is_atomic. cbn [cur bind]. destruct (t_type t); cbn; try discriminate; intros [= _ <- _]; auto.
Qed.
Lemma att_rule_parser ts n p : att_name_rule U ts n = Err (EParser p) ->
  exists t r, ts = t :: r /\ p = t_pos t /\ is_att t = false.
Proof.
  unfold att_name_rule. destruct ts as [|t r]; [discriminate|]. cbn [cur bind]. intros H. exists t, r. unfold is_att.
  destruct (t_type t); cbn in H; try discriminate; injection H as <-; auto.
Qed.
Lemma bool_var_parser ts n p : bool_var_rule U ts n = Err (EParser p) ->
  exists t r, ts = t :: r /\ p = t_pos t /\ is_att t = false /\ ttype_eqb (t_type t) BOOL = false.
Proof.
  unfold bool_var_rule. destruct ts as [|t r]; [discriminate|]. cbn [cur bind].
  destruct (ttype_eqb (t_type t) BOOL) eqn:Eb.
  - intros H. apply bind_err in H as [H|([nd m] & _ & H)]; [now apply mk_node_parser in H|discriminate].
  - intros H. apply att_rule_parser in H as (t' & r' & [= <- <-] & -> & Ha). exists t, r. auto.
Qed.
Lemma bool_var_acc t r n a r' m : bool_var_rule U (t :: r) n = Ok (a, r', m) -> is_att t = true \/ ttype_eqb (t_type t) BOOL = true.
Proof.
  intros H. apply bool_var_rule_ok in H as (u & p & E & Hg & _). apply g_boolvar_head in Hg as (x & -> & D).
  injection E as -> _. destruct D as [->|D]; auto.
Qed.
Lemma eat_parser ty ts p : eat ty ts = Err (EParser p) -> exists t r, ts = t :: r /\ p = t_pos t /\ t_type t <> ty.
Proof.
  unfold eat. destruct ts as [|t r]; [discriminate|]. cbn [cur bind].
  destruct (ttype_eqb (t_type t) ty) eqn:E; [discriminate|]. intros [= <-]. apply ttype_eqb_neq in E. eauto.
Qed.
Lemma eat_acc ty t r x r' : eat ty (t :: r) = Ok (x, r') -> t_type t = ty /\ x = t /\ r' = r.
Proof. intros H. apply eat_ok in H as [[= <- <-] E]. auto. Qed.

Lemma a_comma : t_type (Tok COMMA 0 TNone) = COMMA. Proof. reflexivity. Qed.
Lemma tail_begins : begins_tail [].
Proof. exists [], []. constructor. Qed.

Lemma set_loop_blame f ts n p : set_loop U f ts n = Err (EParser p) -> blamed begins_tail acc_tail nowhere ts p.
Proof.
  revert ts n. induction f as [|f IH]; intros ts n; [discriminate|]. cbn [set_loop].
  destruct ts as [|t ts]; [discriminate|]. cbn [cur bind].
  destruct (ttype_eqb (t_type t) RSET) eqn:Er; [discriminate|]. intros H.
  apply bind_err in H as [H|([c ts1] & H1 & H)].
  { apply eat_parser in H as (t' & r & [= <- <-] & -> & Hn). apply blame_here; [apply tail_begins|].
    intros c v' ([|f'] & n' & l & r & m & A); [discriminate|]. cbn [set_loop cur bind] in A. rewrite Er in A.
    apply bind_ok in A as ([x r1] & A & _). apply eat_acc in A as [A _]. contradiction. }
  apply eat_acc in H1 as (Hc & -> & ->).
  apply bind_err in H as [H|([[nd ts2] n1] & H2 & H)].
  { apply atomic_rule_parser in H as (x & r & -> & -> & Hx). exists [t], x, r. repeat split; auto.
    - exists [Tok NULL 0 TNone], [PT CNull (Tok NULL 0 TNone) []]. apply (gtl_cons t [Tok NULL 0 TNone] _ [] []); auto; constructor; reflexivity.
    - left. intros [|c1 [|c2 c]] v v' E A; cbn; try lia. exfalso. cbn in E. injection E as <- <- _.
      destruct A as ([|f'] & n' & l & r' & m & A); [discriminate|]. cbn [app set_loop cur bind] in A. rewrite Er in A.
      apply bind_ok in A as ([y r1] & A1 & A). apply eat_acc in A1 as (_ & -> & ->).
      apply bind_ok in A as ([[nd r1] n1] & A & _). apply atomic_rule_acc in A as [A _]. congruence. }
  apply bind_err in H as [H|([[nds ts3] n2] & H3 & H)]; [|discriminate].
  apply atomic_rule_ok in H2 as K2. destruct K2 as (u & q & Eu & Hg & _).
  apply (blame_seq _ _ _ _ _ _ _ (t :: u) ts2 _ (IH _ _ H)); [cbn; now rewrite Eu| |contradiction|].
  - intros u0 (w & q0 & Hq). exists w, (q :: q0). cbn. rewrite <- app_assoc. apply gtl_cons; auto.
  - intros c v v' E A. apply g_atomic_head in Hg as K. destruct K as (x & -> & Hx).
    destruct c as [|c1 [|c2 c]]; cbn; auto; try lia. right. exists c. cbn in E. injection E as <- E. rewrite Eu in E. cbn in E.
    injection E as <- E. split; auto. destruct A as ([|f'] & n' & l & r' & m & A); [discriminate|]. cbn [app set_loop cur bind] in A. rewrite Er in A.
    apply bind_ok in A as ([y r1] & A1 & A). apply eat_acc in A1 as (_ & -> & ->).
    apply bind_ok in A as ([[nd' r1] n1'] & A1 & A). apply atomic_rule_acc in A1 as [_ ->].
    apply bind_ok in A as ([[nds' r2] n2'] & A2 & _). exists f', n1', nds', r2, n2'. exact A2.
Qed.
Definition a_lset := Tok LSET 0 TNone.
Definition a_rset := Tok RSET 0 TNone.
Definition a_null := Tok NULL 0 TNone.
Definition a_true := Tok BOOL 0 (TStr (lit "TRUE")).
Definition an_op := Tok OP 0 (TStr (lit "=")).
Definition a_rparn := Tok RPARN 0 TNone.

Lemma set_rule_blame ts n p : set_rule U ts n = Err (EParser p) -> blamed (begins g_set) acc_set nowhere ts p.
Proof.
  unfold set_rule. intros H.
  apply bind_err in H as [H|([lb ts1] & H1 & H)].
  { apply eat_parser in H as (t & r & -> & -> & Hn). apply blame_here.
    - exists [a_lset; a_rset]. eexists. now constructor.
    - intros c v' (n' & a & r' & m & A). unfold set_rule in A. apply bind_ok in A as ([x r1] & A & _).
      apply eat_acc in A as [A _]. contradiction. }
  apply eat_ok in H1 as [-> Hl].
  destruct ts1 as [|t ts1]; [discriminate|]. cbn [cur bind] in H.
  destruct (ttype_eqb (t_type t) RSET) eqn:Er.
  { cbn [bind] in H. apply bind_err in H as [H|([rb ts3] & H3 & H)].
    - apply eat_parser in H as (t' & r & [= <- <-] & _ & Hn). apply ttype_eqb_eq in Er. contradiction.
    - apply bind_err in H as [H|([nd n2] & _ & H)]; discriminate. }
  apply bind_err in H as [H|([[nds ts2] n1] & H2 & H)].
  - apply bind_err in H as [H|([[nd ts3] n2] & H2 & H)].
    { apply atomic_rule_parser in H as (x & r & [= <- <-] & -> & Hx). exists [lb], t, ts1. repeat split; auto.
      - exists [a_rset]. eexists. now constructor.
      - left. intros [|c1 [|c2 c]] v v' E A; cbn; try lia. exfalso. cbn in E. injection E as <- <- _.
        destruct A as (n' & a & r' & m & A). unfold set_rule in A. cbn [app] in A. rewrite eat_hit in A by auto.
        cbn [bind cur] in A. rewrite Er in A. apply bind_ok in A as ([[nds r1] n1] & A & _).
        apply bind_ok in A as ([[nd r2] n2] & A & _). apply atomic_rule_acc in A as [A _]. congruence. }
    apply bind_err in H as [H|([[nds ts4] n3] & H3 & H)]; [|discriminate].
    apply set_loop_blame in H. apply atomic_rule_acc in H2 as [Ha ->].
    apply (blame_seq _ _ _ _ _ _ _ [lb; t] ts1 _ H); [reflexivity| |contradiction|].
    + intros u (w & q & Hq).
      assert (exists pa, g_atomic [t] pa) as (pa & Hpa).
      { unfold is_atomic in Ha. destruct (t_type t) eqn:Et; try discriminate; eexists; now constructor. }
      exists (w ++ [a_rset]). eexists. cbn. change (lb :: t :: u ++ w ++ [a_rset]) with (lb :: ([t] ++ u ++ w ++ [a_rset])).
      replace ([t] ++ u ++ w ++ [a_rset]) with (([t] ++ u ++ w) ++ [a_rset]) by now rewrite !app_assoc.
      apply (gs_some lb ([t] ++ u ++ w) (pa :: q) a_rset); auto. apply setval_tail. exists [t], (u ++ w), pa, q. auto.
    + intros c v v' E A. destruct c as [|c1 [|c2 c]]; cbn; auto. right. exists c. cbn in E. injection E as <- <- _. split; auto.
      destruct A as (n' & a & r' & m & A). unfold set_rule in A. cbn [app] in A. rewrite eat_hit in A by auto.
      cbn [bind cur] in A. rewrite Er in A. apply bind_ok in A as ([[nds r1] n1'] & A & _).
      apply bind_ok in A as ([[nd' r2] n2'] & A1 & A). apply atomic_rule_acc in A1 as [_ ->].
      apply bind_ok in A as ([[nds' r3] n3'] & A & _). eexists _, _, _, _, _. exact A.
  - apply bind_ok in H2 as ([[nd ts3] n2] & _ & H2). apply bind_ok in H2 as ([[nds' ts4] n3] & H2 & [= <- <- <-]).
    apply set_loop_ok in H2 as (u & ps & _ & _ & _ & x & r & -> & Hx).
    rewrite eat_hit in H by auto. cbn [bind] in H. discriminate.
Qed.

Lemma var_rule_blame ts n p : var_rule U ts n = Err (EParser p) ->
  blamed (begins g_var) acc_var nowhere ts p /\
  exists t r, ts = t :: r /\ is_att t = false /\ is_atomic t = false.
Proof.
  unfold var_rule, const_rule. destruct ts as [|t r]; [discriminate|]. cbn [cur bind].
  destruct (is_att t) eqn:Ea.
  { intros H. apply att_rule_parser in H as (t' & r' & [= <- <-] & _ & H). congruence. }
  destruct (is_const t) eqn:Ec.
  - destruct (is_atomic t) eqn:Eat.
    { intros H. apply atomic_rule_parser in H as (t' & r' & [= <- <-] & _ & H). congruence. }
    intros H. split; [|eauto 6]. apply set_rule_blame in H.
    apply (blame_seq _ _ _ _ _ _ _ [] (t :: r) _ H); [reflexivity| |contradiction|].
    + intros u (w & q & Hq). exists w, q. now constructor.
    + intros c v v' E (n' & a & r' & m & A). destruct c as [|y c]; [left; auto|]. right. exists (y :: c). split; auto.
      cbn in E. injection E as <- _. unfold var_rule, const_rule in A. cbn [app cur bind] in A. rewrite Ea, Ec, Eat in A.
      eexists _, _, _, _. exact A.
  - intros [= <-]. split.
    + apply blame_here.
      * exists [a_null]. eexists. apply gv_atomic. exact (gc_null a_null eq_refl).
      * intros c v' (n' & a & r' & m & A). unfold var_rule in A. cbn [app cur bind] in A. rewrite Ea, Ec in A. discriminate.
    + exists t, r. repeat split; auto. unfold is_const in Ec. apply orb_false_iff in Ec. tauto.
Qed.

Lemma a_var : g_var [a_null] (PT CNull a_null []).
Proof. apply gv_atomic. exact (gc_null a_null eq_refl). Qed.
Lemma a_policy : g_policy [a_true] (PT CBoolVal a_true []).
Proof. apply gp_term, gt_exp, ge_bool. now constructor. Qed.
Lemma begins_exp : begins g_exp [].
Proof. exists [a_true], (PT CBoolVal a_true []). apply ge_bool. now constructor. Qed.

Definition cmp_rule (ts : list token) (n : Z) : res (ast * list token * Z) :=
  '(l, ts1, n1) <- var_rule U ts n ;; '(o, ts2) <- eat OP ts1 ;; '(r, ts3, n2) <- var_rule U ts2 n1 ;;
  '(nd, n3) <- mk_node U COp o [l; r] n2 ;; Ok (nd, ts3, n3).

Lemma exp_rule_other f t r n : ttype_eqb (t_type t) NOT_OP = false -> ttype_eqb (t_type t) LPARN = false ->
  exp_rule U (S f) (t :: r) n =
  (g <- starts_op (t :: r) ;; if g : bool then cmp_rule (t :: r) n
   else if ttype_eqb (t_type t) BOOL || is_att t then bool_var_rule U (t :: r) n else Err (EParser (t_pos t))).
Proof. intros E1 E2. cbn [exp_rule cur bind]. now rewrite E1, E2. Qed.

(** With two tokens in common both runs compare or neither does; one is enough for '{'. *)
Lemma acc_cmp t r c v' g : ttype_eqb (t_type t) NOT_OP = false -> ttype_eqb (t_type t) LPARN = false ->
  starts_op (t :: r) = Ok g -> g = true ->
  (t_type t = LSET \/ exists y c' r', c = y :: c' /\ r = y :: r') -> acc_exp (t :: c ++ v') ->
  exists n a r' m, cmp_rule (t :: c ++ v') n = Ok (a, r', m).
Proof.
  intros E1 E2 Hs -> D ([|f] & n & a & r' & m & A); [discriminate|]. rewrite exp_rule_other in A by auto.
  assert (S : starts_op (t :: c ++ v') = Ok true).
  { destruct D as [D|(y & c' & r1 & -> & ->)]; [now apply starts_op_lset|].
    unfold starts_op in Hs |- *. cbn [app cur bind peek] in Hs |- *. destruct (ttype_eqb (t_type t) LSET); auto. }
  rewrite S in A. cbn [bind] in A. eauto.
Qed.

Lemma within_cut c v v' s r r' : within c (c ++ v) (c ++ v') r r' -> c ++ v = s ++ r ->
  (List.length c <= List.length s)%nat \/ exists c1, c = s ++ c1 /\ r = c1 ++ v /\ r' = c1 ++ v'.
Proof.
  intros (s0 & s' & E & E' & D) H. assert (s0 = s) as -> by (rewrite E in H; now apply app_inv_tail in H).
  destruct D as [(<- & c1 & ->)|(L & _)]; auto. right. exists c1. rewrite <- app_assoc in E, E'.
  apply app_inv_head in E, E'. auto.
Qed.

Lemma rules_blame f :
  (forall ts n p, exp_rule U f ts n = Err (EParser p) -> blamed (begins g_exp) acc_exp pre_exp ts p) /\
  (forall a0 ts n p, term_loop U f a0 ts n = Err (EParser p) -> forall v l, g_term v l ->
     blamed (fun u => begins g_term (v ++ u)) acc_tloop (fun u => pre_term (v ++ u)) ts p) /\
  (forall ts n p, term_rule U f ts n = Err (EParser p) -> blamed (begins g_term) acc_term pre_term ts p) /\
  (forall a0 ts n p, policy_loop U f a0 ts n = Err (EParser p) -> forall v l, g_policy v l ->
     blamed (fun u => begins g_policy (v ++ u)) acc_ploop (fun u => pre_policy (v ++ u)) ts p) /\
  (forall ts n p, policy_rule U f ts n = Err (EParser p) -> blamed (begins g_policy) acc_policy pre_policy ts p).
Proof.
  induction f as [|f (IHe & IHtl & IHt & IHpl & IHp)]; [repeat split; discriminate|].
  (* a parenthesised policy *)
  set (acc_paren := fun ts => exists f n a r m,
    ('(s, ts2, n1) <- policy_rule U f ts n ;; '(_, ts3) <- eat RPARN ts2 ;; Ok (s, ts3, n1)) = Ok (a : ast, r : list token, m : Z)).
  assert (Paren : forall ts n p,
    ('(s, ts2, n1) <- policy_rule U f ts n ;; '(_, ts3) <- eat RPARN ts2 ;; Ok (s, ts3, n1)) = Err (EParser p) ->
    blamed (begins g_policy) acc_paren pre_policy ts p).
  { intros ts n p H. apply bind_err in H as [H|([[s ts2] n1] & H1 & H)].
    - apply IHp in H. apply (blame_seq _ _ _ _ _ _ _ [] ts _ H); auto.
      intros c v v' E (f' & n' & a & r & m & A). right. exists c. split; auto.
      apply bind_ok in A as ([[s ts2] n1] & A & _). eexists _, _, _, _, _. exact A.
    - apply bind_err in H as [H|([rp ts3] & _ & H)]; [|discriminate].
      apply eat_parser in H as (x & w & -> & -> & Hx). pose proof H1 as K. apply rules_sound in K as (u & q & Eu & Hg & _).
      exists u, x, w. repeat split; auto; [exists [], q; now rewrite app_nil_r|]. left.
      intros c v v' E (f' & n' & a & r & m & A). apply bind_ok in A as ([[s' ts2'] n1'] & A1 & A).
      apply bind_ok in A as ([rp ts3] & A & _). subst ts. rewrite E in H1.
      assert (W : within c (c ++ v) (c ++ v') (x :: w) ts2') by (eapply (proj2 (proj2 (proj2 (proj2 (rules_within f))))); eauto).
      destruct (within_cut _ _ _ u _ _ W (eq_sym E)) as [L|(c1 & -> & E1 & E2)]; auto.
      destruct c1 as [|y c1]; [rewrite app_nil_r; auto|]. cbn in E1, E2. injection E1 as <- _. subst ts2'.
      apply eat_acc in A as [A _]. contradiction. }
  repeat split.
  - intros ts n p H. destruct ts as [|t ts]; [discriminate|].
    destruct (ttype_eqb (t_type t) NOT_OP) eqn:En.
    { cbn [exp_rule cur bind tl] in H. rewrite En in H. cbv zeta in H. apply ttype_eqb_eq in En.
      destruct ts as [|t1 ts]; [discriminate|]. cbn [cur bind tl] in H.
      apply bind_err in H as [H|([[sub ts2] n1] & _ & H)]; [|discriminate].
      assert (Acc : forall c v', acc_exp (t :: t1 :: c ++ v') ->
        exists f n a r m, (if ttype_eqb (t_type t1) LPARN then '(s, ts2, n1) <- policy_rule U f (c ++ v') n ;; '(_, ts3) <- eat RPARN ts2 ;; Ok (s, ts3, n1)
                           else bool_var_rule U (t1 :: c ++ v') n) = Ok (a, r, m)).
      { intros c v' ([|f'] & n' & a & r & m & A); [discriminate|]. cbn [exp_rule cur bind tl] in A. rewrite En in A.
        cbn [ttype_eqb ttype_val] in A. cbv zeta in A. cbn [tl cur bind] in A. apply bind_ok in A as ([[x y] z] & A & _).
        exists f', n', x, y, z. exact A. }
      destruct (ttype_eqb (t_type t1) LPARN) eqn:El.
      - apply ttype_eqb_eq in El. apply Paren in H.
        apply (blame_seq _ _ _ _ _ _ _ [t; t1] ts _ H); [reflexivity| | |].
        + intros u (w & q & Hq). exists (w ++ [a_rparn]). eexists. cbn. rewrite app_assoc. eapply ge_not_paren; eauto.
        + intros u Hu. now apply pe_not_paren.
        + intros c v v' E A. destruct c as [|c1 [|c2 c]]; cbn; auto. right. cbn in E. injection E as <- <- _.
          exists c. split; auto. apply Acc in A. exact A.
      - apply bool_var_parser in H as (x & r & [= <- <-] & -> & Ha & Hb). exists [t], t1, ts. repeat split; auto.
        + exists [a_true]. eexists. apply ge_not_bool; auto. now constructor.
        + left. intros [|c1 [|c2 c]] v v' E A; cbn; try lia. exfalso. cbn in E. injection E as <- <- _.
          apply Acc in A as (_ & n' & a & r & m & A). apply bool_var_acc in A as [A|A]; congruence. }
    destruct (ttype_eqb (t_type t) LPARN) eqn:El.
    { cbn [exp_rule cur bind tl] in H. rewrite En, El in H. pose proof El as El'. apply ttype_eqb_eq in El. apply Paren in H.
      apply (blame_seq _ _ _ _ _ _ _ [t] ts _ H); [reflexivity| | |].
      - intros u (w & q & Hq). exists (w ++ [a_rparn]). eexists. cbn. rewrite app_assoc. eapply ge_paren; eauto.
      - intros u Hu. now apply pe_paren.
      - intros c v v' E A. destruct c as [|c1 c]; cbn; auto. right. cbn in E. injection E as <- _. exists c. split; auto.
        destruct A as ([|f'] & n' & a & r & m & A); [discriminate|]. cbn [app exp_rule cur bind tl] in A. rewrite En, El' in A.
        exists f', n', a, r, m. exact A. }
    rewrite exp_rule_other in H by auto.
    apply bind_err in H as [H|(g & Hs & H)].
    { exfalso. unfold starts_op in H. cbn [cur bind] in H. destruct (ttype_eqb (t_type t) LSET); [discriminate|].
      destruct ts; discriminate. }
    destruct g.
    + unfold cmp_rule in H. apply bind_err in H as [H|([[l ts1] n1] & H1 & H)].
      { (* the first operand *)
        assert (Ht : t_type t = LSET).
        { apply var_rule_blame in H as [_ (x & r & [= <- <-] & Ha & Hat)]. unfold starts_op in Hs. cbn [cur bind] in Hs.
          destruct (ttype_eqb (t_type t) LSET) eqn:Es; [now apply ttype_eqb_eq in Es|].
          destruct ts as [|y ts]; cbn in Hs; [discriminate|]. unfold is_const in Hs. rewrite Ha, Hat, Es in Hs.
          rewrite andb_false_r in Hs. discriminate. }
        apply var_rule_blame in H as [H _].
        apply (blame_seq _ _ _ _ _ _ _ [] (t :: ts) _ H); [reflexivity| |contradiction|].
        - intros u (w & q & Hq). exists (w ++ an_op :: [a_null]). eexists. cbn. rewrite app_assoc.
          exact (ge_op _ _ an_op [a_null] _ Hq eq_refl a_var).
        - intros c v v' E A. destruct c as [|c1 c]; [left; auto|]. right. cbn in E. injection E as <- _. exists (t :: c). split; auto.
          destruct (acc_cmp t ts c v' true En El Hs eq_refl (or_introl Ht) A) as (n' & a & r' & m & B).
          unfold cmp_rule in B. apply bind_ok in B as ([[l1 x1] m1] & B & _). eexists _, _, _, _. exact B. }
      pose proof H1 as K1. apply var_rule_ok in K1 as (u & q & Eu & Hg & _).
      apply bind_err in H as [H|([o ts2] & H2 & H)].
      { (* the operator *)
        apply eat_parser in H as (x & w & -> & -> & Hx).
        assert (Ht : t_type t = LSET).
        { unfold starts_op in Hs. cbn [cur bind] in Hs.
          destruct (ttype_eqb (t_type t) LSET) eqn:Es; [now apply ttype_eqb_eq in Es|]. exfalso.
          destruct ts as [|y ts]; cbn in Hs; [discriminate|]. injection Hs as Hs. apply andb_true_iff in Hs as [Ho _].
          apply ttype_eqb_eq in Ho.
          assert (List.length u = 1%nat) as Lu.
          { destruct Hg as [u q Hg|u q Hg|u q Hg].
            - apply g_atomic_head in Hg as (z & -> & _). reflexivity.
            - apply g_set_head in Hg as (z & z' & -> & Hz). cbn in Eu. injection Eu as -> _. rewrite Hz in Es. discriminate.
            - apply g_att_head in Hg as (z & -> & _). reflexivity. }
          destruct u as [|z [|? ?]]; try discriminate. cbn in Eu. injection Eu as _ -> _. contradiction. }
        exists u, x, w. repeat split; auto.
        - exists [an_op; a_null]. eexists. exact (ge_op _ _ an_op [a_null] _ Hg eq_refl a_var).
        - left. intros c v v' E A. destruct c as [|c1 c]; [cbn; lia|]. pose proof E as E0. cbn in E. injection E as <- E.
          destruct (acc_cmp t ts c v' true En El Hs eq_refl (or_introl Ht) A) as (n' & a & r' & m & B).
          unfold cmp_rule in B. apply bind_ok in B as ([[l1 x1] m1] & B1 & B). apply bind_ok in B as ([o r1] & B & _).
          assert (W : within (t :: c) ((t :: c) ++ v) ((t :: c) ++ v') (x :: w) x1) by (rewrite <- E0; eapply var_within; eauto; reflexivity).
          destruct (within_cut _ _ _ u _ _ W) as [L|(c1 & Ec & E1 & E2)]; auto; [now rewrite <- E0|].
          destruct c1 as [|y c1]; [rewrite Ec, app_nil_r; auto|]. cbn in E1, E2. injection E1 as <- _. subst x1.
          apply eat_acc in B as [B _]. contradiction. }
      (* the second operand *)
      apply bind_err in H as [H|([[r1 ts3] n2] & H3 & H)]; [|discriminate].
      apply eat_ok in H2 as [-> Ho]. apply var_rule_blame in H as [H _].
      assert (u <> []) as Hne.
      { intros ->. inversion Hg as [? ? K|? ? K|? ? K]; inversion K. }
      apply (blame_seq _ _ _ _ _ _ _ (u ++ [o]) ts2 _ H); [rewrite <- app_assoc; exact Eu| |contradiction|].
      * intros u2 (w & q2 & Hq). exists w. eexists. rewrite <- !app_assoc. cbn. apply ge_op; eauto.
      * intros c v v' E A. destruct c as [|c1 [|c2 c]]; [left; cbn; lia|left; rewrite app_length; cbn; lia|].
        pose proof E as E0. cbn in E. injection E as <- Ets.
        assert (D : t_type t = LSET \/ exists y c' r', c2 :: c = y :: c' /\ ts = y :: r') by (right; eauto).
        destruct (acc_cmp t ts (c2 :: c) v' true En El Hs eq_refl D A) as (n' & a & r' & m & B).
        unfold cmp_rule in B. apply bind_ok in B as ([[l1 x1] m1] & B1 & B). apply bind_ok in B as ([o' r2] & B2 & B).
        apply bind_ok in B as ([[l3 x3] m3] & B3 & _).
        assert (W : within (t :: c2 :: c) ((t :: c2 :: c) ++ v) ((t :: c2 :: c) ++ v') (o :: ts2) x1)
          by (rewrite <- E0; eapply var_within; eauto; reflexivity).
        destruct (within_cut _ _ _ u _ _ W) as [L|(c1 & Ec & E1 & E2)]; [now rewrite <- E0|left; rewrite app_length; cbn in L |- *; lia|].
        destruct c1 as [|y c1]; [left; rewrite Ec, app_nil_r, app_length; lia|]. cbn in E1, E2. injection E1 as <- E1. subst x1.
        right. exists c1. split; [rewrite Ec, <- app_assoc; reflexivity|]. apply eat_acc in B2 as (_ & -> & ->).
        eexists _, _, _, _. exact B3.
    + destruct (ttype_eqb (t_type t) BOOL || is_att t) eqn:Eb.
      { exfalso. apply bool_var_parser in H as (x & r & [= <- <-] & _ & Ha & Hb). rewrite Ha, Hb in Eb. discriminate. }
      injection H as <-. apply orb_false_iff in Eb as [Eb Ea].
      assert (Es : ttype_eqb (t_type t) LSET = false).
      { unfold starts_op in Hs. cbn [cur bind] in Hs. destruct (ttype_eqb (t_type t) LSET); [discriminate|reflexivity]. }
      destruct (is_atomic t) eqn:Eat.
      * exists [], t, ts. repeat split; auto using begins_exp. right. split; [exact Eat|]. split; [constructor|].
        unfold starts_op in Hs. cbn [cur bind] in Hs. rewrite Es in Hs. destruct ts as [|y ts]; [discriminate|]. cbn in Hs.
        exists y, ts. split; auto. unfold is_const in Hs. rewrite Ea, Eat in Hs. cbn in Hs. injection Hs as Hs.
        rewrite andb_true_r in Hs. now apply ttype_eqb_neq in Hs.
      * apply blame_here; [apply begins_exp|]. intros c v' ([|f'] & n' & a & r & m & A); [discriminate|].
        rewrite exp_rule_other in A by auto. apply bind_ok in A as (g & Hg & A).
        assert (g = false) as ->.
        { unfold starts_op in Hg. cbn [cur bind] in Hg. rewrite Es in Hg. destruct (c ++ v'); [discriminate|]. cbn in Hg.
          injection Hg as <-. unfold is_const. rewrite Ea, Eat, Es. apply andb_false_r. }
        rewrite Eb, Ea in A. discriminate.
  - intros a0 ts n p H v l Hv. destruct ts as [|t ts]; [discriminate|]. cbn [term_loop cur bind tl] in H.
    destruct (is_bool_op "AND" t) eqn:Eo; [|discriminate]. pose proof Eo as Ew. apply is_bool_op_word in Ew.
    assert (Acc : forall c v', acc_tloop (t :: c ++ v') -> exists f n a r m f' a' m' r' m'' b,
      exp_rule U f (c ++ v') n = Ok (a, r, m) /\ term_loop U f' a' r m' = Ok (b, r', m'')).
    { intros c v' ([|f'] & a1 & n' & a & r & m & A); [discriminate|]. cbn [term_loop cur bind tl] in A. rewrite Eo in A.
      apply bind_ok in A as ([[e ts1] n1] & A1 & A). apply bind_ok in A as ([nd n2] & _ & A). eauto 20. }
    apply bind_err in H as [H|([[e ts1] n1] & H1 & H)].
    + apply IHe in H. apply (blame_seq _ _ _ _ _ _ _ [t] ts _ H); [reflexivity| | |].
      * intros u (w & q & Hq). exists w. eexists. rewrite <- app_assoc. cbn. eapply gt_and; eauto.
      * intros u Hu. cbn. eapply pt_and; eauto.
      * intros c w w' E A. destruct c as [|c1 c]; cbn; auto. right. cbn in E. injection E as <- _. exists c. split; auto.
        apply Acc in A as (f' & n' & a & r & m & _ & _ & _ & _ & _ & _ & A & _). eexists _, _, _, _, _. exact A.
    + apply bind_err in H as [H|([nd n2] & _ & H)]; [discriminate|].
      pose proof H1 as K1. apply rules_sound in K1 as (u & q & Eu & Hg & _).
      assert (Hv2 : g_term (v ++ t :: u) (PT CBoolOp t [l; q])) by now apply gt_and.
      pose proof (IHtl _ _ _ _ H _ _ Hv2) as B.
      apply (blame_seq _ _ _ _ _ _ _ (t :: u) ts1 _ B); [cbn; now rewrite Eu| | |].
      * intros u2 Hu. now rewrite <- app_assoc in Hu.
      * intros u2 Hu. now rewrite <- app_assoc in Hu.
      * intros c w w' E A. destruct c as [|c1 c]; [left; cbn; lia|]. cbn in E. injection E as <- E.
        apply Acc in A as (f' & n' & a & r & m & f2 & a2 & m2 & r2 & m3 & b & A1 & A2).
        assert (W : within c (c ++ w) (c ++ w') ts1 r) by (rewrite <- E; eapply (proj1 (rules_within f)); eauto).
        destruct (within_cut _ _ _ u _ _ W) as [L|(c1 & -> & E1 & E2)]; [now rewrite <- E|left; cbn; lia|].
        right. exists c1. split; auto. subst r. eexists _, _, _, _, _, _. exact A2.
  - intros ts n p H. cbn [term_rule] in H. apply bind_err in H as [H|([[e ts1] n1] & H1 & H)].
    + apply IHe in H. apply (blame_seq _ _ _ _ _ _ _ [] ts _ H); [reflexivity| | |].
      * intros u (w & q & Hq). exists w, q. now apply gt_exp.
      * intros u Hu. now apply pt_first.
      * intros c w w' E ([|f'] & n' & a & r & m & A); [discriminate|]. cbn [term_rule] in A. right. exists c. split; auto.
        apply bind_ok in A as ([[e ts1] n1] & A & _). eexists _, _, _, _, _. exact A.
    + pose proof H1 as K1. apply rules_sound in K1 as (u & q & Eu & Hg & _).
      assert (Hv2 : g_term u q) by now apply gt_exp.
      pose proof (IHtl _ _ _ _ H _ _ Hv2) as B.
      apply (blame_seq _ _ _ _ _ _ _ u ts1 _ B); auto.
      intros c w w' E ([|f'] & n' & a & r & m & A); [discriminate|]. cbn [term_rule] in A.
      apply bind_ok in A as ([[e' r1] n1'] & A1 & A).
      assert (W : within c (c ++ w) (c ++ w') ts1 r1) by (rewrite <- E; eapply (proj1 (rules_within f)); eauto).
      destruct (within_cut _ _ _ u _ _ W) as [L|(c1 & -> & E1 & E2)]; [now rewrite <- E|auto|].
      right. exists c1. split; auto. subst r1. eexists _, _, _, _, _, _. exact A.
  - intros a0 ts n p H v l Hv. destruct ts as [|t ts]; [discriminate|]. cbn [policy_loop cur bind tl] in H.
    destruct (is_bool_op "OR" t) eqn:Eo; [|discriminate]. pose proof Eo as Ew. apply is_bool_op_word in Ew.
    assert (Acc : forall c v', acc_ploop (t :: c ++ v') -> exists f n a r m f' a' m' r' m'' b,
      term_rule U f (c ++ v') n = Ok (a, r, m) /\ policy_loop U f' a' r m' = Ok (b, r', m'')).
    { intros c v' ([|f'] & a1 & n' & a & r & m & A); [discriminate|]. cbn [policy_loop cur bind tl] in A. rewrite Eo in A.
      apply bind_ok in A as ([[e ts1] n1] & A1 & A). apply bind_ok in A as ([nd n2] & _ & A). eauto 20. }
    apply bind_err in H as [H|([[e ts1] n1] & H1 & H)].
    + apply IHt in H. apply (blame_seq _ _ _ _ _ _ _ [t] ts _ H); [reflexivity| | |].
      * intros u (w & q & Hq). exists w. eexists. rewrite <- app_assoc. cbn. eapply gp_or; eauto.
      * intros u Hu. cbn. eapply pp_or; eauto.
      * intros c w w' E A. destruct c as [|c1 c]; cbn; auto. right. cbn in E. injection E as <- _. exists c. split; auto.
        apply Acc in A as (f' & n' & a & r & m & _ & _ & _ & _ & _ & _ & A & _). eexists _, _, _, _, _. exact A.
    + apply bind_err in H as [H|([nd n2] & _ & H)]; [discriminate|].
      pose proof H1 as K1. apply rules_sound in K1 as (u & q & Eu & Hg & _).
      assert (Hv2 : g_policy (v ++ t :: u) (PT CBoolOp t [l; q])) by now apply gp_or.
      pose proof (IHpl _ _ _ _ H _ _ Hv2) as B.
      apply (blame_seq _ _ _ _ _ _ _ (t :: u) ts1 _ B); [cbn; now rewrite Eu| | |].
      * intros u2 Hu. now rewrite <- app_assoc in Hu.
      * intros u2 Hu. now rewrite <- app_assoc in Hu.
      * intros c w w' E A. destruct c as [|c1 c]; [left; cbn; lia|]. cbn in E. injection E as <- E.
        apply Acc in A as (f' & n' & a & r & m & f2 & a2 & m2 & r2 & m3 & b & A1 & A2).
        assert (W : within c (c ++ w) (c ++ w') ts1 r) by (rewrite <- E; eapply (proj1 (proj2 (proj2 (rules_within f)))); eauto).
        destruct (within_cut _ _ _ u _ _ W) as [L|(c1 & -> & E1 & E2)]; [now rewrite <- E|left; cbn; lia|].
        right. exists c1. split; auto. subst r. eexists _, _, _, _, _, _. exact A2.
  - intros ts n p H. cbn [policy_rule] in H. apply bind_err in H as [H|([[e ts1] n1] & H1 & H)].
    + apply IHt in H. apply (blame_seq _ _ _ _ _ _ _ [] ts _ H); [reflexivity| | |].
      * intros u (w & q & Hq). exists w, q. now apply gp_term.
      * intros u Hu. now apply pp_first.
      * intros c w w' E ([|f'] & n' & a & r & m & A); [discriminate|]. cbn [policy_rule] in A. right. exists c. split; auto.
        apply bind_ok in A as ([[e ts1] n1] & A & _). eexists _, _, _, _, _. exact A.
    + pose proof H1 as K1. apply rules_sound in K1 as (u & q & Eu & Hg & _).
      assert (Hv2 : g_policy u q) by now apply gp_term.
      pose proof (IHpl _ _ _ _ H _ _ Hv2) as B.
      apply (blame_seq _ _ _ _ _ _ _ u ts1 _ B); auto.
      intros c w w' E ([|f'] & n' & a & r & m & A); [discriminate|]. cbn [policy_rule] in A.
      apply bind_ok in A as ([[e' r1] n1'] & A1 & A).
      assert (W : within c (c ++ w) (c ++ w') ts1 r1) by (rewrite <- E; eapply (proj1 (proj2 (proj2 (rules_within f)))); eauto).
      destruct (within_cut _ _ _ u _ _ W) as [L|(c1 & -> & E1 & E2)]; [now rewrite <- E|auto|].
      right. exists c1. split; auto. subst r1. eexists _, _, _, _, _, _. exact A.
Qed.

(** ** Beginnings of policies *)

Lemma pre_extends :
  (forall u, pre_exp u -> forall e q, g_exp e q -> begins g_exp (u ++ e)) /\
  (forall u, pre_term u -> forall e q, g_exp e q -> begins g_term (u ++ e)) /\
  (forall u, pre_policy u -> forall e q, g_exp e q -> begins g_policy (u ++ e)).
Proof.
  apply pre_mind.
  - intros e q H. exists [], q. rewrite app_nil_r. exact H.
  - intros lp u Hl _ IH e q H. destruct (IH e q H) as (w & r & K). exists (w ++ [a_rparn]), r. cbn. rewrite app_assoc.
    now apply ge_paren.
  - intros t lp u Ht Hl _ IH e q H. destruct (IH e q H) as (w & r & K). exists (w ++ [a_rparn]). eexists. cbn. rewrite app_assoc.
    eapply ge_not_paren; eauto.
  - intros u _ IH e q H. destruct (IH e q H) as (w & r & K). exists w, r. now apply gt_exp.
  - intros v l a u Hv Ha _ IH e q H. destruct (IH e q H) as (w & r & K). exists w. eexists. rewrite <- !app_assoc. cbn.
    rewrite app_assoc. eapply gt_and; eauto.
  - intros u _ IH e q H. destruct (IH e q H) as (w & r & K). exists w, r. now apply gp_term.
  - intros v l a u Hv Ha _ IH e q H. destruct (IH e q H) as (w & r & K). exists w. eexists. rewrite <- !app_assoc. cbn.
    rewrite app_assoc. eapply gp_or; eauto.
Qed.

(** Where an expression has to start, the run fails as that expression does. *)
Lemma pre_run :
  (forall u, pre_exp u -> Forall bool_ok u -> exists f0, forall f rest n e, (f0 <= f)%nat ->
     (forall f n, exp_rule U (S f) rest n = Err e) -> exp_rule U f (u ++ rest) n = Err e) /\
  (forall u, pre_term u -> Forall bool_ok u -> exists f0, forall f rest n e, (f0 <= f)%nat ->
     (forall f n, exp_rule U (S f) rest n = Err e) -> term_rule U f (u ++ rest) n = Err e) /\
  (forall u, pre_policy u -> Forall bool_ok u -> exists f0, forall f rest n e, (f0 <= f)%nat ->
     (forall f n, exp_rule U (S f) rest n = Err e) -> policy_rule U f (u ++ rest) n = Err e).
Proof.
  apply pre_mind.
  - intros _. exists 1%nat. intros f rest n e Hf Ht. destruct f as [|f]; [lia|]. apply Ht.
  - intros lp u Hl Hu IH Hb. inversion Hb; subst. destruct (IH H2) as (f0 & H). exists (S f0).
    intros f rest n e Hf Ht. destruct f as [|f]; [lia|]. cbn [app exp_rule cur bind tl].
    rewrite Hl. cbn [ttype_eqb ttype_val]. rewrite H with (e := e) by (auto; lia). reflexivity.
  - intros t0 lp u H0 Hl Hu IH Hb. inversion Hb as [|? ? _ Hb2]; subst. inversion Hb2; subst.
    destruct (IH H3) as (f0 & H). exists (S f0).
    intros f rest n e Hf Ht. destruct f as [|f]; [lia|]. cbn [app exp_rule cur bind tl].
    rewrite H0. cbn [ttype_eqb ttype_val tl]. cbv zeta. cbn [cur bind]. rewrite Hl.
    cbn [ttype_eqb ttype_val tl]. rewrite H with (e := e) by (auto; lia). reflexivity.
  - intros u Hu IH Hb. destruct (IH Hb) as (f0 & H). exists (S f0). intros f rest n e Hf Ht.
    destruct f as [|f]; [lia|]. cbn [term_rule]. now rewrite H with (e := e) by (auto; lia).
  - intros v l a u Hv Ha Hu IH Hb. apply Forall_app in Hb as [Hbv Hb]. inversion Hb as [|? ? _ Hbu]; subst.
    destruct (IH Hbu) as (f0 & H).
    destruct (rules_complete U) as (_ & C & _). destruct (C _ _ Hv) as (f1 & d & HC).
    exists (d + S (f0 + f1))%nat. intros f rest n e Hf Ht.
    replace f with (d + (f - d))%nat by lia. rewrite <- app_assoc. cbn [app].
    rewrite HC; [|lia|cbn; destruct Ha as [-> _]; discriminate].
    apply g_buildable in Hv; auto. destruct (build_ok U _ Hv n) as (x & n' & ->). cbn [bind].
    destruct (f - d)%nat as [|k] eqn:E; [lia|]. cbn [term_loop cur bind tl].
    apply is_bool_op_word in Ha. rewrite Ha. now rewrite H with (e := e) by (auto; lia).
  - intros u Hu IH Hb. destruct (IH Hb) as (f0 & H). exists (S f0). intros f rest n e Hf Ht.
    destruct f as [|f]; [lia|]. cbn [policy_rule]. now rewrite H with (e := e) by (auto; lia).
  - intros v l a u Hv Ha Hu IH Hb. apply Forall_app in Hb as [Hbv Hb]. inversion Hb as [|? ? _ Hbu]; subst.
    destruct (IH Hbu) as (f0 & H).
    destruct (rules_complete U) as (_ & _ & C). destruct (C _ _ Hv) as (f1 & d & HC).
    exists (d + S (f0 + f1))%nat. intros f rest n e Hf Ht.
    replace f with (d + (f - d))%nat by lia. rewrite <- app_assoc. cbn [app].
    rewrite HC; [|lia|cbn; unfold is_word in *; destruct Ha as [-> ->]; split; [discriminate|intros [_ ?]; discriminate]].
    apply g_buildable in Hv; auto. destruct (build_ok U _ Hv n) as (x & n' & ->). cbn [bind].
    destruct (f - d)%nat as [|k] eqn:E; [lia|]. cbn [policy_loop cur bind tl].
    apply is_bool_op_word in Ha. rewrite Ha. now rewrite H with (e := e) by (auto; lia).
Qed.

Lemma constant_fails c y w f n : is_atomic c = true -> t_type y <> OP ->
  exp_rule U (S f) (c :: y :: w) n = Err (EParser (t_pos c)).
Proof.
  intros Hc Hy. apply ttype_eqb_neq in Hy.
  assert (E : ttype_eqb (t_type c) NOT_OP = false /\ ttype_eqb (t_type c) LPARN = false /\ ttype_eqb (t_type c) LSET = false /\
              ttype_eqb (t_type c) BOOL = false /\ is_att c = false).
  { repeat split; try (apply is_atomic_type_neq; auto; fail). now apply is_atomic_not_att. }
  destruct E as (E1 & E2 & E3 & E4 & E5). rewrite exp_rule_other by auto. unfold starts_op. cbn [cur bind peek].
  rewrite E3. cbn [bind]. rewrite Hy. cbn. now rewrite E4, E5.
Qed.
End WithUnicode.

(** Tokens that the grammar cannot tell apart: boolean literals with other values. *)
Definition tsim (a b : token) : Prop := t_type a = t_type b /\ (t_type a <> BOOL -> a = b).

Ltac sims := repeat match goal with
  | H : Forall2 tsim (_ :: _) ?l |- _ => let y := fresh "y" in let l' := fresh "l" in
      inversion H as [|? y ? l' ? ?]; subst; clear H
  | H : Forall2 tsim [] ?l |- _ => inversion H; subst; clear H
  | H : Forall2 tsim (_ ++ _) ?l |- _ => apply Forall2_app_inv_l in H as (? & ? & ? & ? & ->)
  end.
Lemma tsim_type a b ty : tsim a b -> t_type a = ty -> t_type b = ty.
Proof. intros [H _] <-. congruence. Qed.
Lemma tsim_word a b w : tsim a b -> is_word BOOL_OP w a -> is_word BOOL_OP w b.
Proof. intros [_ H] K. rewrite <- H; auto. destruct K as [-> _]. discriminate. Qed.

Lemma f2_cons x l l' : Forall2 tsim (x :: l) l' -> exists y l2, l' = y :: l2 /\ tsim x y /\ Forall2 tsim l l2.
Proof. intros H. inversion H; subst. eauto. Qed.
Lemma g_att_sim u p : g_att u p -> forall u', Forall2 tsim u u' -> exists p', g_att u' p'.
Proof.
  destruct 1 as [t E|t E|t E|t E|t E]; intros u' F; sims; eexists; [apply ga_user|apply ga_object|apply ga_env|apply ga_admin|apply ga_connect]; eapply tsim_type; eauto.
Qed.
Lemma g_atomic_sim u p : g_atomic u p -> forall u', Forall2 tsim u u' -> exists p', g_atomic u' p'.
Proof.
  destruct 1 as [t E|t E|t E|t E]; intros u' F; sims; eexists; [apply gc_int|apply gc_float|apply gc_string|apply gc_null]; eapply tsim_type; eauto.
Qed.
Lemma g_setval_sim u p : g_setval u p -> forall u', Forall2 tsim u u' -> exists p', g_setval u' p'.
Proof.
  induction 1 as [u a H|u a c v l H Hc Hv IH]; intros u' F.
  - destruct (g_atomic_sim _ _ H _ F) as (q & Hq). eexists. apply gsv_one; eauto.
  - apply Forall2_app_inv_l in F as (u1 & u2 & F1 & F2 & ->). apply f2_cons in F2 as (y & l2 & -> & Hy & F3).
    destruct (g_atomic_sim _ _ H _ F1) as (q & Hq). destruct (IH _ F3) as (q2 & Hq2). eexists.
    eapply gsv_more; eauto. eapply tsim_type; eauto.
Qed.
Lemma g_var_sim u p : g_var u p -> forall u', Forall2 tsim u u' -> exists p', g_var u' p'.
Proof.
  destruct 1 as [u p H|u p H|u p H]; intros u' F.
  - destruct (g_atomic_sim _ _ H _ F) as (q & Hq). exists q. now apply gv_atomic.
  - destruct H as [lb rb El Er|lb u l rb El H Er].
    + sims. eexists. apply gv_set, gs_empty; eapply tsim_type; eauto.
    + apply f2_cons in F as (y & l2 & -> & Hy & F3). apply Forall2_app_inv_l in F3 as (u1 & u2 & F1 & F2 & ->). sims.
      destruct (g_setval_sim _ _ H _ F1) as (q & Hq). eexists. eapply gv_set, gs_some; eauto; eapply tsim_type; eauto.
  - destruct (g_att_sim _ _ H _ F) as (q & Hq). exists q. now apply gv_att.
Qed.
Lemma g_boolvar_sim u p : g_boolvar u p -> forall u', Forall2 tsim u u' -> exists p', g_boolvar u' p'.
Proof.
  destruct 1 as [t E|u p H]; intros u' F.
  - sims. eexists. apply gb_bool. eapply tsim_type; eauto.
  - destruct (g_att_sim _ _ H _ F) as (q & Hq). exists q. now apply gb_att.
Qed.
Lemma g_sim :
  (forall u p, g_exp u p -> forall u', Forall2 tsim u u' -> exists p', g_exp u' p') /\
  (forall u p, g_term u p -> forall u', Forall2 tsim u u' -> exists p', g_term u' p') /\
  (forall u p, g_policy u p -> forall u', Forall2 tsim u u' -> exists p', g_policy u' p').
Proof.
  apply g_mind.
  - intros u l o v r Hu Ho Hv u' F. apply Forall2_app_inv_l in F as (u1 & u2 & F1 & F2 & ->). apply f2_cons in F2 as (y & l2 & -> & Hy & F3).
    destruct (g_var_sim _ _ Hu _ F1) as (q & Hq). destruct (g_var_sim _ _ Hv _ F3) as (q2 & Hq2). eexists.
    eapply ge_op; eauto. eapply tsim_type; eauto.
  - intros u b H u' F. destruct (g_boolvar_sim _ _ H _ F) as (q & Hq). exists q. now apply ge_bool.
  - intros t u b Ht H u' F. apply f2_cons in F as (y & l2 & -> & Hy & F3). destruct (g_boolvar_sim _ _ H _ F3) as (q & Hq). eexists.
    eapply ge_not_bool; eauto. eapply tsim_type; eauto.
  - intros lp u p rp Hl _ IH Hr u' F. apply f2_cons in F as (y & l2 & -> & Hy & F3). apply Forall2_app_inv_l in F3 as (u1 & u2 & F1 & F2 & ->). sims.
    destruct (IH _ F1) as (q & Hq). eexists. eapply ge_paren; eauto; eapply tsim_type; eauto.
  - intros t lp u p rp Ht Hl _ IH Hr u' F. apply f2_cons in F as (y & l2 & -> & Hy & F3). apply f2_cons in F3 as (y2 & l3 & -> & Hy2 & F4).
    apply Forall2_app_inv_l in F4 as (u1 & u2 & F1 & F2 & ->). sims.
    destruct (IH _ F1) as (q & Hq). eexists. eapply ge_not_paren; eauto; eapply tsim_type; eauto.
  - intros u e _ IH u' F. destruct (IH _ F) as (q & Hq). exists q. now apply gt_exp.
  - intros u l a v r _ IH1 Ha _ IH2 u' F. apply Forall2_app_inv_l in F as (u1 & u2 & F1 & F2 & ->). apply f2_cons in F2 as (y & l2 & -> & Hy & F3).
    destruct (IH1 _ F1) as (q & Hq). destruct (IH2 _ F3) as (q2 & Hq2). eexists. eapply gt_and; eauto. eapply tsim_word; eauto.
  - intros u e _ IH u' F. destruct (IH _ F) as (q & Hq). exists q. now apply gp_term.
  - intros u l a v r _ IH1 Ha _ IH2 u' F. apply Forall2_app_inv_l in F as (u1 & u2 & F1 & F2 & ->). apply f2_cons in F2 as (y & l2 & -> & Hy & F3).
    destruct (IH1 _ F1) as (q & Hq). destruct (IH2 _ F3) as (q2 & Hq2). eexists. eapply gp_or; eauto. eapply tsim_word; eauto.
Qed.
Lemma tsim_refl a : tsim a a.
Proof. split; auto. Qed.
Lemma tsim_tm a : tsim a (tm a).
Proof.
  split; [now rewrite tm_type|]. unfold tm. destruct (ttype_eqb (t_type a) BOOL) eqn:E; auto.
  apply ttype_eqb_eq in E. contradiction.
Qed.
Lemma tsims_refl u : Forall2 tsim u u.
Proof. induction u; constructor; auto using tsim_refl. Qed.
Lemma tsims_tm u : Forall2 tsim u (map tm u).
Proof. induction u; constructor; auto using tsim_tm. Qed.

(** ** Specification *)

(** A beginning of the token list of some policy (START included). *)
Definition viable (u : list token) : Prop := exists w p, derives (u ++ w) p.
(** A beginning after which an expression has to start. *)
Definition expects (u : list token) : Prop := exists s v, u = s :: v /\ t_type s = START /\ pre_policy v.
Definition constant (t : token) : Prop := In (t_type t) [INT; FLOAT; STRING; NULL].

(** The token to blame, after the tokens [u]. *)
Inductive culprit (ts u : list token) (t : token) : Prop :=
| cu_constant y v : ts = u ++ t :: y :: v -> expects u -> constant t -> t_type y <> OP -> culprit ts u t
| cu_other v : ts = u ++ t :: v -> viable u -> ~ viable (u ++ [t]) ->
    ~ (t_type t = END /\ expects u) ->
    (forall u0 c, u = u0 ++ [c] -> constant c -> ~ expects u0) -> culprit ts u t.

Lemma constant_atomic t : constant t <-> is_atomic t = true.
Proof.
  unfold constant, is_atomic. split.
  - intros [<-|[<-|[<-|[<-|[]]]]]; reflexivity.
  - destruct (t_type t); try discriminate; cbn; auto 6.
Qed.

Lemma viable_prefix u v : viable (u ++ v) -> viable u.
Proof. intros (w & p & H). exists (v ++ w), p. now rewrite app_assoc. Qed.
Lemma begins_viable s u : t_type s = START -> begins g_policy u -> viable (s :: u).
Proof.
  intros Hs (w & q & H). exists (w ++ [Tok END 0 TNone]), q, s, (u ++ w), (Tok END 0 TNone), [].
  repeat split; auto. cbn. now rewrite app_assoc.
Qed.
Lemma expects_viable u : expects u -> viable u.
Proof.
  intros (s & v & -> & Hs & Hv). apply begins_viable; auto.
  destruct pre_extends as (_ & _ & P). destruct (P v Hv [a_true] (PT CBoolVal a_true [])) as (w & q & H).
  - apply ge_bool. now constructor.
  - exists ([a_true] ++ w), q. now rewrite app_assoc.
Qed.
Lemma expects_const_viable u c : expects u -> constant c -> viable (u ++ [c]).
Proof.
  intros (s & v & -> & Hs & Hv) Hc. apply (begins_viable s (v ++ [c])); auto.
  apply constant_atomic in Hc. assert (exists q, g_var [c] q) as (q & Hq).
  { unfold is_atomic in Hc. destruct (t_type c) eqn:E; try discriminate; eexists; apply gv_atomic;
    first [now apply gc_int|now apply gc_float|now apply gc_string|now apply gc_null]. }
  destruct pre_extends as (_ & _ & P). destruct (P v Hv [c; an_op; a_null] _ (ge_op [c] _ an_op [a_null] _ Hq eq_refl a_var)) as (w & q2 & H).
  exists ([an_op; a_null] ++ w), q2. rewrite <- app_assoc in H |- *. exact H.
Qed.

Section WithUnicode2.
Variable U : unicode.

Definition acc_file (ts : list token) : Prop :=
  exists f n a r m e r2, policy_rule U f ts n = Ok (a, r, m) /\ eat END r = Ok (e, r2).

(** A viable list of tokens with good boolean literals is the beginning of one the parser takes. *)
Lemma viable_accepted s u : viable (s :: u) -> Forall bool_ok u -> exists w, acc_file (u ++ w).
Proof.
  intros (w & p & s' & b & e & tr & E & Hs & Hg & He) Hb. cbn in E. injection E as <- E.
  exists (map tm w).
  assert (F : Forall2 tsim (b ++ e :: tr) (u ++ map tm w)).
  { rewrite <- E. apply Forall2_app; [apply tsims_refl|apply tsims_tm]. }
  assert (B : Forall bool_ok (u ++ map tm w)) by (apply Forall_app; split; auto; apply bool_ok_tm).
  apply Forall2_app_inv_l in F as (b' & r' & F1 & F2 & E2). inversion F2 as [|? e' ? tr' He' F3]; subst.
  rewrite E2 in B |- *. apply Forall_app in B as [B _].
  destruct g_sim as (_ & _ & S). destruct (S _ _ Hg _ F1) as (q & Hq).
  destruct (policy_complete U _ _ Hq) as (f0 & HC).
  assert (Bq : buildable q) by (eapply g_buildable; eauto). destruct (build_ok U _ Bq 0) as (a & n' & Ha).
  assert (t_type e' = END) as X by (eapply tsim_type; eauto).
  exists f0, 0, a, (e' :: tr'), n', e', tr'. split; [|now apply eat_hit]. rewrite HC; auto; [unfold lift; now rewrite Ha|].
  cbn. unfold is_word. rewrite X.
  repeat split; try discriminate; intros [? _]; discriminate.
Qed.

Lemma const_not_viable u c y : expects u -> Forall bool_ok u -> constant c -> t_type y <> OP -> bool_ok y ->
  ~ viable (u ++ [c; y]).
Proof.
  intros (s & v & -> & Hs & Hv) Hb Hc Hy Hby Hw. cbn in Hw. inversion Hb as [|? ? _ Hb']; subst.
  pose proof Hc as Ha. apply constant_atomic in Ha.
  apply viable_accepted in Hw as (w & f & n & a & r & m & _ & _ & A & _).
  - destruct pre_run with (U := U) as (_ & _ & P). destruct (P v Hv Hb') as (f0 & H).
    rewrite <- app_assoc in A. cbn in A.
    assert (K := H (f0 + f)%nat (c :: y :: w) n (EParser (t_pos c)) ltac:(lia) (fun f n => constant_fails U c y w f n Ha Hy)).
    rewrite (policy_stable U f (f0 + f)) in K; [congruence|lia|congruence].
  - apply Forall_app. split; auto. constructor; [|constructor; auto]. intros E.
    unfold constant in Hc. rewrite E in Hc. cbn in Hc. intuition discriminate.
Qed.

Lemma parse_blame s ts last p : t_type s = START -> parse U (s :: ts) last = Err (EParser p) ->
  blamed (begins g_policy) acc_file pre_policy ts p.
Proof.
  intros Hs H. unfold parse in H. rewrite eat_hit in H by auto. cbn [bind] in H.
  apply bind_err in H as [H|([[nd ts2] n1] & H1 & H)].
  - apply rules_blame in H. apply (blame_seq _ _ _ _ _ _ _ [] ts _ H); auto.
    intros c v v' E (f & n & a & r & m & _ & _ & A & _). right. exists c. split; auto. eexists _, _, _, _, _. exact A.
  - apply bind_err in H as [H|([e1 ts3] & _ & H)]; [|discriminate].
    apply eat_parser in H as (x & w & -> & -> & Hx). pose proof H1 as K. apply rules_sound in K as (u & q & Eu & Hg & _).
    exists u, x, w. repeat split; auto; [exists [], q; now rewrite app_nil_r|]. left.
    intros c v v' E (f & n & a & r & m & e & r2 & A1 & A2). rewrite Eu in E, H1. rewrite E in H1.
    assert (W : within c (c ++ v) (c ++ v') (x :: w) r) by (eapply (proj2 (proj2 (proj2 (proj2 (rules_within U _))))); eauto).
    destruct (within_cut _ _ _ u _ _ W (eq_sym E)) as [L|(c1 & -> & E1 & E2)]; auto.
    destruct c1 as [|y c1]; [rewrite app_nil_r; auto|]. cbn in E1, E2. injection E1 as <- _. subst r.
    apply eat_acc in A2 as [A2 _]. contradiction.
Qed.

(** A list as the lexer makes it. *)
Definition file (ts : list token) : Prop := exists s body e, ts = s :: body ++ [e] /\ t_type s = START /\ t_type e = END /\
  Forall (fun t => t_type t <> START /\ t_type t <> END) body /\ Forall bool_ok ts /\
  forall i j t1 t2, (1 <= i < j)%nat -> nth_error ts i = Some t1 -> nth_error ts j = Some t2 -> t_pos t1 < t_pos t2.

Lemma pre_ends :
  (forall u, pre_exp u -> forall v c, u = v ++ [c] -> ~ constant c) /\
  (forall u, pre_term u -> forall v c, u = v ++ [c] -> ~ constant c) /\
  (forall u, pre_policy u -> forall v c, u = v ++ [c] -> ~ constant c).
Proof.
  assert (C : forall ty t, t_type t = ty -> ~ In ty [INT; FLOAT; STRING; NULL] -> ~ constant t) by (unfold constant; intros ty t <-; auto).
  assert (T : forall (a : token) u v c, a :: u = v ++ [c] -> (v = [] /\ c = a /\ u = []) \/ exists v', v = a :: v' /\ u = v' ++ [c]).
  { intros a u [|b v] c E; cbn in E; injection E as -> E; [left|right]; subst; eauto. }
  apply pre_mind.
  - intros [|] c E; discriminate.
  - intros lp u Hl _ IH v c E. apply T in E as [(_ & -> & _)|(v' & -> & E)]; [|eapply IH; eauto]. apply (C _ _ Hl). cbn. intuition discriminate.
  - intros t lp u Ht Hl _ IH v c E. apply T in E as [(_ & -> & E)|(v' & -> & E)]; [discriminate|].
    apply T in E as [(_ & -> & _)|(v2 & -> & E)]; [|eapply IH; eauto]. apply (C _ _ Hl). cbn. intuition discriminate.
  - intros u _ IH. exact IH.
  - intros v l a u Hv [Ha _] _ IH v2 c E. destruct u as [|x u].
    + apply app_inj_tail in E as [_ <-]. apply (C _ _ Ha). cbn. intuition discriminate.
    + destruct (@exists_last _ (x :: u)) as (u' & c' & Eu); [discriminate|]. rewrite Eu in E.
      rewrite app_comm_cons, app_assoc in E. apply app_inj_tail in E as [_ <-]. eapply IH; eauto.
  - intros u _ IH. exact IH.
  - intros v l a u Hv [Ha _] _ IH v2 c E. destruct u as [|x u].
    + apply app_inj_tail in E as [_ <-]. apply (C _ _ Ha). cbn. intuition discriminate.
    + destruct (@exists_last _ (x :: u)) as (u' & c' & Eu); [discriminate|]. rewrite Eu in E.
      rewrite app_comm_cons, app_assoc in E. apply app_inj_tail in E as [_ <-]. eapply IH; eauto.
Qed.

Lemma nth_mid {A} (u : list A) x w : nth_error (u ++ x :: w) (List.length u) = Some x.
Proof. induction u; cbn; auto. Qed.

Lemma culprit_found ts last p : file ts -> parse U ts last = Err (EParser p) -> exists u t, culprit ts u t /\ p = t_pos t.
Proof.
  intros (s & body & e & -> & Hs & He & Hbody & Hb & Hpos) H.
  assert (Hend : ended (s :: body ++ [e])) by now apply lex_ended.
  pose proof (parse_blame _ _ _ _ Hs H) as (u & x & w & E & -> & V & D).
  exists (s :: u), x. split; auto. pose proof Hb as Hb0. inversion Hb0 as [|? ? Hbs Hb']; subst. clear Hb0. rewrite E in *.
  destruct D as [St|(Ha & Hu & y & w0 & -> & Hy)].
  2:{ eapply cu_constant; [reflexivity|exists s, u; auto|now apply constant_atomic|exact Hy]. }
  apply Forall_app in Hb' as [Hbu Hbx]. inversion Hbx as [|? ? Hbx1 Hbw]; subst.
  apply cu_other with (v := w); [reflexivity|now apply begins_viable| | |].
  - intros Hv. apply (viable_accepted s (u ++ [x])) in Hv as (v' & A).
    + specialize (St (u ++ [x]) w v'). rewrite <- app_assoc in St. specialize (St eq_refl A). rewrite app_length in St. cbn in St. lia.
    + apply Forall_app. auto.
  - intros [Hx (s' & v & [= <- <-] & _ & Hu)].
    assert (w = []) as ->.
    { destruct w as [|y w]; auto. exfalso. destruct (@exists_last _ (y :: w)) as (w' & e' & Ew); [discriminate|]. rewrite Ew in E.
      rewrite app_comm_cons, app_assoc in E. apply app_inj_tail in E as [-> _]. apply Forall_app in Hbody as [_ Hbody].
      inversion Hbody as [|? ? [_ K] _]. contradiction. }
    assert (K : parse U (s :: u ++ [x]) last = Err EIndex) by (apply parse_index; auto; eauto 10). congruence.
  - intros u0 c Eu Hc (s' & v & -> & _ & Hv). cbn in Eu. injection Eu as <- ->.
    destruct (ttype_eqb (t_type x) OP) eqn:Eo.
    + (* an operator may follow the constant *)
      apply ttype_eqb_eq in Eo. pose proof Hc as Hca. apply constant_atomic in Hca.
      assert (exists q, g_var [c] q) as (q & Hq).
      { unfold is_atomic in Hca. destruct (t_type c) eqn:Ec; try discriminate; eexists; apply gv_atomic;
        first [now apply gc_int|now apply gc_float|now apply gc_string|now apply gc_null]. }
      destruct pre_extends as (_ & _ & P). destruct (P v Hv [c; x; a_null] _ (ge_op [c] _ x [a_null] _ Hq Eo a_var)) as (w1 & q1 & G).
      assert (Vx : viable (s :: (v ++ [c]) ++ [x])).
      { apply begins_viable; auto. exists (a_null :: w1), q1. rewrite <- app_assoc in G. rewrite <- !app_assoc. exact G. }
      apply viable_accepted in Vx as (v' & A); [|apply Forall_app; auto].
      specialize (St ((v ++ [c]) ++ [x]) w v'). rewrite <- (app_assoc (v ++ [c])) in St. specialize (St eq_refl A).
      rewrite !app_length in St. cbn in St. lia.
    + apply ttype_eqb_neq in Eo. pose proof Hc as Hca. apply constant_atomic in Hca.
      destruct (pre_run U) as (_ & _ & P). apply Forall_app in Hbu as [Hbv _]. destruct (P v Hv Hbv) as (f0 & K).
      assert (F := K (f0 + parse_fuel (s :: v ++ c :: x :: w))%nat (c :: x :: w) last (EParser (t_pos c)) ltac:(lia) (fun f n => constant_fails U c x w f n Hca Eo)).
      rewrite (policy_rule_parse U s) in F by lia.
      unfold parse in H. rewrite eat_hit in H by auto. cbn [bind] in H. rewrite <- !app_assoc in H. cbn [app] in H.
      rewrite F in H. cbn [bind] in H. injection H as H.
      specialize (Hpos (S (List.length v)) (S (S (List.length v))) c x ltac:(lia)). cbn [nth_error] in Hpos.
      rewrite <- !app_assoc in Hpos. cbn [app] in Hpos. rewrite nth_mid in Hpos.
      assert (N : nth_error (v ++ c :: x :: w) (S (List.length v)) = Some x).
      { replace (v ++ c :: x :: w) with ((v ++ [c]) ++ x :: w) by now rewrite <- app_assoc.
        replace (S (List.length v)) with (List.length (v ++ [c])) by (rewrite app_length; cbn; lia). apply nth_mid. }
      specialize (Hpos eq_refl N). lia.
Qed.

(** Viable beginnings of a list are its short ones. *)
Lemma prefix_viable (a b v w : list token) : a ++ v = b ++ w -> viable a -> (List.length b <= List.length a)%nat -> viable b.
Proof.
  intros E H L. destruct (app_eq_app _ _ _ _ E) as (l & [[-> _]|[-> _]]); [now apply viable_prefix in H|].
  rewrite app_length in L. destruct l; [now rewrite app_nil_r|cbn in L; lia].
Qed.
Lemma same_length (a b v w : list token) : a ++ v = b ++ w -> List.length a = List.length b -> a = b /\ v = w.
Proof.
  intros E L. destruct (app_eq_app _ _ _ _ E) as (l & [[-> ->]|[-> ->]]); rewrite app_length in L;
  (destruct l; [rewrite app_nil_r; auto|cbn in L; lia]).
Qed.

Lemma culprit_unique ts u t u' t' : Forall bool_ok ts -> culprit ts u t -> culprit ts u' t' -> u = u' /\ t = t'.
Proof.
  intros Hb.
  (* the longest viable beginning *)
  assert (M : forall m, viable m -> forall x r, ts = m ++ x :: r -> ~ viable (m ++ [x]) ->
              forall m2 x2 r2, viable m2 -> ts = m2 ++ x2 :: r2 -> ~ viable (m2 ++ [x2]) -> m = m2 /\ x :: r = x2 :: r2).
  { intros m V x r -> N m2 x2 r2 V2 E2 N2.
    assert (List.length m = List.length m2).
    { destruct (Nat.lt_trichotomy (List.length m) (List.length m2)) as [L|[L|L]]; auto; exfalso.
      - apply N. apply (prefix_viable m2 (m ++ [x]) (x2 :: r2) r); auto; [rewrite <- E2, <- app_assoc; reflexivity|rewrite app_length; cbn; lia].
      - apply N2. apply (prefix_viable m (m2 ++ [x2]) (x :: r) r2); auto; [rewrite E2, <- app_assoc; reflexivity|rewrite app_length; cbn; lia]. }
    now apply same_length. }
  assert (K : forall u t y v, ts = u ++ t :: y :: v -> expects u -> constant t -> t_type y <> OP ->
              viable (u ++ [t]) /\ ts = (u ++ [t]) ++ y :: v /\ ~ viable ((u ++ [t]) ++ [y])).
  { intros u0 t0 y v E Hu Ht Hy. split; [now apply expects_const_viable|]. rewrite <- !app_assoc. split; auto.
    rewrite E in Hb. apply Forall_app in Hb as [Hb1 Hb2]. inversion Hb2 as [|? ? _ Hb3]; subst. inversion Hb3; subst.
    now apply const_not_viable. }
  intros [y v E Hu Ht Hy|v E V N Hend Hc] [y' v' E' Hu' Ht' Hy'|v' E' V' N' Hend' Hc'].
  - destruct (K _ _ _ _ E Hu Ht Hy) as (V1 & E1 & N1). destruct (K _ _ _ _ E' Hu' Ht' Hy') as (V2 & E2 & N2).
    destruct (M _ V1 _ _ E1 N1 _ _ _ V2 E2 N2) as [X _]. apply app_inj_tail in X. exact X.
  - exfalso. destruct (K _ _ _ _ E Hu Ht Hy) as (V1 & E1 & N1).
    destruct (M _ V1 _ _ E1 N1 _ _ _ V' E' N') as [X _]. eapply Hc'; eauto.
  - exfalso. destruct (K _ _ _ _ E' Hu' Ht' Hy') as (V1 & E1 & N1).
    destruct (M _ V1 _ _ E1 N1 _ _ _ V E N) as [X _]. eapply Hc; eauto.
  - destruct (M _ V _ _ E N _ _ _ V' E' N') as [-> X]. injection X as -> _. auto.
Qed.

Lemma culprit_stops ts last u t : file ts -> culprit ts u t -> exists p, parse U ts last = Err (EParser p).
Proof.
  intros Hf C. assert (NV : forall p, ~ derives ts p).
  { intros q Hd. assert (V : forall a b, ts = a ++ b -> viable a) by (intros a b E; exists b, q; now rewrite <- E).
    destruct C as [y v E Hu Ht Hy|v E _ N _ _].
    - destruct Hf as (s & body & e & _ & _ & _ & _ & Hb & _). rewrite E in Hb. apply Forall_app in Hb as [Hb1 Hb2].
      inversion Hb2 as [|? ? _ Hb3]; subst. inversion Hb3; subst. apply (const_not_viable u t y); auto.
      apply (V _ v). now rewrite <- app_assoc.
    - apply N. apply (V _ v). now rewrite <- app_assoc. }
  destruct Hf as (s & body & e & -> & Hs & He & Hbody & Hb & Hpos).
  assert (Hend : ended (s :: body ++ [e])) by now apply lex_ended.
  destruct (parse U (s :: body ++ [e]) last) as [[a n']|x] eqn:P.
  { apply parse_sound in P as (q & Hd & _). now apply NV in Hd. }
  pose proof P as P0. apply parse_err in P0; auto. destruct P0 as [(x0 & _ & ->)| ->]; [eauto|]. exfalso.
  apply parse_index in P as (s1 & b1 & e1 & E1 & Hs1 & Hu1); auto. injection E1 as <- E1. apply app_inj_tail in E1 as [<- <-].
  assert (Ex : expects (s :: body)) by (exists s, body; auto).
  destruct C as [y v E Hu Ht Hy|v E V N Hnend _].
  - (* the constant would be the last token before END *)
    assert (Hb2 := Hb). rewrite E in Hb2. apply Forall_app in Hb2 as [Hb1 Hb2]. inversion Hb2 as [|? ? _ Hb3]; subst. inversion Hb3; subst.
    assert (L : ~ viable (u ++ [t; y])) by now apply const_not_viable.
    assert (v = []) as ->.
    { destruct v as [|z v]; auto. exfalso. apply L. apply (prefix_viable (s :: body) _ [e] (z :: v)).
      - rewrite <- app_assoc. cbn [app] in E |- *. rewrite E. reflexivity.
      - now apply expects_viable.
      - apply (f_equal (@List.length token)) in E. cbn in E. rewrite !app_length in E. cbn in E |- *. rewrite app_length. cbn. lia. }
    assert (E' : (s :: body) ++ [e] = (u ++ [t]) ++ [y]) by (rewrite <- app_assoc; exact E).
    apply app_inj_tail in E' as [E' _]. destruct Hu as (s2 & v2 & -> & _ & Hv2). cbn in E'. injection E' as _ E'.
    eapply (proj2 (proj2 pre_ends)); eauto.
  - assert (Lu : u = s :: body).
    { destruct (Nat.lt_trichotomy (List.length u) (List.length (s :: body))) as [L|[L|L]].
      - exfalso. apply N. apply (prefix_viable (s :: body) _ [e] v).
        + rewrite <- app_assoc. cbn [app] in E |- *. rewrite E. reflexivity.
        + now apply expects_viable.
        + rewrite app_length. cbn in L |- *. lia.
      - symmetry. apply (same_length _ _ [e] (t :: v)); [exact E|auto].
      - exfalso. apply (f_equal (@List.length token)) in E. cbn in E. rewrite !app_length in E. cbn in E, L. lia. }
    subst u. apply Hnend. split; auto. cbn in E. injection E as E. apply app_inv_head in E. injection E as <- _. exact He.
Qed.
End WithUnicode2.

Lemma lexed_file U text ts : unicode_ok U -> lex_text U text = Ok ts -> file ts.
Proof.
  intros uok H. pose proof (C02_positions_increase U text ts uok H) as Hp.
  destruct (lex_text_shape U text ts uok H) as (body & e & -> & He & _ & Hb & Hk).
  exists start_token, body, e. repeat split; auto.
Qed.

(** C11.  ParserError points at the first token that cannot follow what stands before it -- or,
    where an expression had to start, at the constant in front of it, -- and at no other. *)
Theorem C11_position (U : unicode) (text : str) (ts : list token) (last p : Z) :
  unicode_ok U -> lex_text U text = Ok ts ->
  (parse U ts last = Err (EParser p) <-> exists u t, culprit ts u t /\ p = t_pos t).
Proof.
  intros uok H. pose proof (lexed_file U text ts uok H) as Hf. split.
  - now apply culprit_found.
  - intros (u & t & C & ->). destruct (culprit_stops U ts last u t Hf C) as (p' & E). rewrite E.
    destruct (culprit_found U ts last p' Hf E) as (u' & t' & C' & ->). f_equal.
    destruct Hf as (s & body & e & _ & _ & _ & _ & Hb & _).
    now destruct (culprit_unique U ts u t u' t' Hb C C') as [_ ->].
Qed.
Theorem C11_position_unique (U : unicode) (text : str) (ts u u' : list token) (t t' : token) :
  unicode_ok U -> lex_text U text = Ok ts -> culprit ts u t -> culprit ts u' t' -> u = u' /\ t = t'.
Proof.
  intros uok H. destruct (lexed_file U text ts uok H) as (s & body & e & _ & _ & _ & _ & Hb & _). now apply (culprit_unique U).
Qed.

(** A constant where an expression has to start is blamed itself, although a longer reading of it
    exists ("5 = ..."); everything else is blamed where the reading stops. *)
Definition blame_of (text : string) : option Z :=
  match parse_text ascii_only (lit text) 0 with Err (EParser p) => Some p | _ => None end.
Example ex_blame :
  map blame_of ["5 AND TRUE"; "true = true"; "user.a = 5 6"; "user.a = {1, 2"; "(user.a OR user.b"; "NOT user.a"; "TRUE AND 3"]%string
  = [Some 0; Some 5; Some 11; Some 14; Some 17; None; Some 9].
Proof. vm_compute. reflexivity. Qed.
Example ex_culprit : exists ts t, lex_text ascii_only (lit "(5 AND TRUE)") = Ok ts /\
  culprit ts (firstn 2 ts) t /\ t_pos t = 1 /\ parse ascii_only ts 0 = Err (EParser 1).
Proof.
  destruct (lex_text ascii_only (lit "(5 AND TRUE)")) as [ts|] eqn:E; [|vm_compute in E; discriminate].
  assert (exists s l c a r, ts = s :: l :: c :: a :: r /\ t_type s = START /\ t_type l = LPARN /\ t_type c = INT /\ t_type a = BOOL_OP /\ t_pos c = 1)
    as (s & l & c & a & r & -> & Hs & Hl & Hc & Ha & Hp).
  { vm_compute in E. inversion E. eexists _, _, _, _, _. repeat split. }
  exists (s :: l :: c :: a :: r), c. split; auto.
  assert (C : culprit (s :: l :: c :: a :: r) [s; l] c).
  { apply cu_constant with (y := a) (v := r); auto.
    - exists s, [l]. repeat split; auto. repeat constructor; auto.
    - unfold constant. rewrite Hc. cbn. auto.
    - rewrite Ha. discriminate. }
  repeat split; auto. apply (C11_position _ _ _ 0 1 ascii_only_ok E). eauto.
Qed.
Print Assumptions C11_position.
Print Assumptions C11_position_unique.
