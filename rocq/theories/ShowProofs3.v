(** * ShowProofs3: the lines of a printed tree, and trees of policies *)

From Coq Require Import NArith ZArith List Bool String Lia SpecFloat.
From Verif Require Import PyBase PyNum Lexer LexSpec LexProofs LexProofs2 Values Ast Symbols AttCert Errors Demo LexDiag
  Diag Parser Grammar ParseProofs ParseProofs2 ParseProps EvalProofs AbsProofs CodecSpec CodecProps BytesProofs CertProofs3 Show ShowSpec
  ShowProofs ShowProofs2.
Import ListNotations.
Open Scope Z_scope.

(** ** Lines *)

Lemma split_lines : forall ls, Forall (fun l => ~ In nl l) ls -> split_on nl (flat_map (fun l => l ++ [nl]) ls) = ls ++ [[]].
Proof.
  induction 1 as [|l ls H _ IH]; [reflexivity|]. cbn [flat_map]. rewrite <- app_assoc. cbn [app]. rewrite split_app by exact H. now rewrite IH.
Qed.

Lemma preorder_nodes : forall a d, map snd (preorder d a) = subtrees a.
Proof.
  induction a as [c t i r ks IH] using ast_ind'. intros d. cbn [preorder subtrees n_kids map snd]. f_equal.
  induction IH as [|k ks H _ IHk]; [reflexivity|]. cbn [flat_map]. now rewrite map_app, H, IHk.
Qed.

Section WithPython.
Variable printable : N -> bool.
Variable P : pytext.
Variable h : heap.

(** The line of a node at a depth. *)
Definition line_of (l : str) (e : nat * ast) : Prop :=
  exists x, result_str P h (n_result (snd e)) = Ok x /\
    l = blanks (3 * fst e) ++ type_name (t_type (n_tok (snd e))) ++ lit ": " ++ val_repr printable P (t_val (n_tok (snd e)))
        ++ lit " -> " ++ x.

Lemma print_lines : forall a d s, print_tree printable P h (3 * d) a = Ok s ->
  exists ls, s = flat_map (fun l => l ++ [nl]) ls /\ Forall2 line_of ls (preorder d a).
Proof.
  induction a as [c t i r ks IH] using ast_ind'. intros d s H. cbn [print_tree] in H.
  apply bind_ok in H as (x & Hx & H). apply bind_ok in H as (y & Hy & H). injection H as <-.
  unfold node_line in Hx. apply bind_ok in Hx as (v & Hv & Hx). apply Ok_inj in Hx. subst x.
  assert (K : exists ls, y = flat_map (fun l => l ++ [nl]) ls /\ Forall2 line_of ls (flat_map (preorder (S d)) ks)).
  { revert y Hy. induction IH as [|k ks Hk _ IHk]; intros y Hy.
    - injection Hy as <-. exists []. split; [reflexivity|constructor].
    - apply bind_ok in Hy as (u & Hu & Hy). apply bind_ok in Hy as (w & Hw & Hy). injection Hy as <-.
      replace (3 * d + 3)%nat with (3 * S d)%nat in Hu by lia. destruct (Hk (S d) u Hu) as (l1 & -> & F1).
      destruct (IHk w Hw) as (l2 & -> & F2). exists (l1 ++ l2). split; [now rewrite flat_map_app|]. cbn [flat_map]. now apply Forall2_app. }
  destruct K as (ls & -> & F).
  exists ((blanks (3 * d) ++ type_name (t_type t) ++ lit ": " ++ val_repr printable P (t_val t) ++ lit " -> " ++ v) :: ls).
  split; [|cbn [preorder]; constructor; [|exact F]].
  - cbn [flat_map]. rewrite <- !app_assoc. reflexivity.
  - exists v. split; [exact Hv|reflexivity].
Qed.

Lemma print_ok : forall a d, (forall n, In n (subtrees a) -> exists x, result_str P h (n_result n) = Ok x) ->
  exists s, print_tree printable P h d a = Ok s.
Proof.
  induction a as [c t i r ks IH] using ast_ind'. intros d H. cbn [print_tree].
  destruct (H (Node c t i r ks)) as [x Hx]; [now left|]. cbn [n_result] in Hx. unfold node_line. rewrite Hx. cbn [bind].
  assert (K : forall n, In n (flat_map subtrees ks) -> exists x, result_str P h (n_result n) = Ok x).
  { intros n Hn. apply H. cbn [subtrees n_kids]. now right. }
  clear H Hx. match goal with |- context [bind ?m _] => assert (G : exists y, m = Ok y) end.
  { induction IH as [|k ks Hk _ IHk]; [eauto|]. destruct (Hk (d + 3)%nat) as [u Hu].
    { intros n Hn. apply K. cbn [flat_map]. apply in_app_iff. now left. }
    rewrite Hu. cbn [bind]. destruct IHk as [w Hw]; [intros n Hn; apply K; cbn [flat_map]; apply in_app_iff; now right|].
    rewrite Hw. cbn [bind]. eauto. }
  destruct G as [y ->]. cbn [bind]. eauto.
Qed.

(** Results printed on one line. *)
Definition quiet (a : ast) : Prop :=
  forall n x, In n (subtrees a) -> result_str P h (n_result n) = Ok x -> ~ In nl x.

Lemma type_no_nl ty : ~ In nl (type_name ty).
Proof. intros H. pose proof (type_name_chars ty) as F. rewrite Forall_forall in F. apply F in H. unfold name_char, nl in H. lia. Qed.

Lemma val_no_nl v : (forall f, ~ In nl (show_float P f)) -> ~ In nl (val_repr printable P v).
Proof.
  intros F. destruct v as [|s|z|f]; cbn [val_repr]; auto.
  - vm_compute. intuition discriminate.
  - apply str_repr_no_nl.
  - apply str_of_Z_no_nl.
Qed.

Lemma line_no_nl l e : (forall f, ~ In nl (show_float P f)) ->
  (forall x, result_str P h (n_result (snd e)) = Ok x -> ~ In nl x) -> line_of l e -> ~ In nl l.
Proof.
  intros F Q (x & Hx & ->) H. rewrite !in_app_iff in H. destruct H as [H|[H|[H|[H|[H|H]]]]].
  - apply repeat_spec in H. discriminate.
  - exact (type_no_nl _ H).
  - revert H. vm_compute. intuition discriminate.
  - exact (val_no_nl _ F H).
  - revert H. vm_compute. intuition discriminate.
  - exact (Q x Hx H).
Qed.

Lemma node_str_lines a s : (forall f, ~ In nl (show_float P f)) -> quiet a -> node_str printable P h a = Ok s ->
  exists ls, split_on nl s = ls ++ [[]] /\ Forall2 line_of ls (preorder 0 a).
Proof.
  intros F Q H. apply (print_lines a 0) in H as (ls & -> & L). exists ls. split; [|exact L]. apply split_lines.
  assert (Q' : Forall (fun e => forall x, result_str P h (n_result (snd e)) = Ok x -> ~ In nl x) (preorder 0 a)).
  { apply Forall_forall. intros e He x Hx. apply (Q (snd e) x); [|exact Hx]. rewrite <- (preorder_nodes a 0). now apply in_map. }
  clear - F L Q'. induction L as [|l e ls es H _ IH]; constructor; inversion Q'; subst; auto. eapply line_no_nl; eauto.
Qed.

(** ** Parts of a line *)

Lemma blanks_eq n m x y c d : c <> 32%N -> d <> 32%N -> blanks n ++ c :: x = blanks m ++ d :: y -> n = m /\ c :: x = d :: y.
Proof.
  unfold blanks. intros C D. revert m. induction n as [|n IH]; intros [|m] E; cbn [repeat app] in E; auto.
  - injection E as -> _. congruence.
  - injection E as <- _. congruence.
  - injection E as E. destruct (IH m E) as [-> ->]. auto.
Qed.

Lemma type_head ty : exists c r, type_name ty = c :: r /\ c <> 32%N.
Proof.
  pose proof (type_name_chars ty) as F. destruct (type_name ty) as [|c r] eqn:E; [destruct ty; discriminate E|]. inversion F; subst.
  exists c, r. split; [reflexivity|]. intros ->. revert H1. unfold name_char. lia.
Qed.

Definition below (d : nat) (l : list (nat * ast)) : Prop := match l with [] => True | x :: _ => (fst x <= d)%nat end.

Lemma preorder_head a d : exists r, preorder d a = (d, a) :: r.
Proof. destruct a. cbn [preorder]. eauto. Qed.

End WithPython.

(** ** Form *)

Definition same_label (R : option rval -> option rval -> Prop) (x y : nat * ast) : Prop :=
  fst x = fst y /\ t_type (n_tok (snd x)) = t_type (n_tok (snd y)) /\ t_val (n_tok (snd x)) = t_val (n_tok (snd y)) /\
  R (n_result (snd x)) (n_result (snd y)).

Section Form.
Variable printable : N -> bool.
Variable P : pytext.
Hypothesis FT : float_texts P.
Variables h h' : heap.
Definition same_result (r r' : option rval) : Prop := result_str P h r = result_str P h' r'.

Lemma line_label l x y : Forall code_point (value_text (t_val (n_tok (snd x)))) -> Forall code_point (value_text (t_val (n_tok (snd y)))) ->
  line_of printable P h l x -> line_of printable P h' l y -> same_label same_result x y.
Proof.
  intros CX CY (u & Hu & ->) (v & Hv & E).
  destruct (type_head (t_type (n_tok (snd x)))) as (c & r & Ec & C). destruct (type_head (t_type (n_tok (snd y)))) as (d & q & Ed & D).
  assert (G : fst x = fst y /\ type_name (t_type (n_tok (snd x))) ++ lit ": " ++ val_repr printable P (t_val (n_tok (snd x))) ++ lit " -> " ++ u
                = type_name (t_type (n_tok (snd y))) ++ lit ": " ++ val_repr printable P (t_val (n_tok (snd y))) ++ lit " -> " ++ v).
  { rewrite Ec, Ed in *. cbn [app] in *. apply blanks_eq in E as [E1 E2]; auto. split; [lia|exact E2]. }
  destruct G as [G1 G2]. split; [exact G1|]. apply (span_eq name_char) in G2 as [G2 G3]; auto using type_name_chars.
  - apply app_inv_head in G3. change (lit " -> " ++ u) with (32%N :: lit "-> " ++ u) in G3. change (lit " -> " ++ v) with (32%N :: lit "-> " ++ v) in G3.
    apply (val_prefix_at printable P FT) in G3 as [G3 G4]; auto; [|unfold number_char; lia]. apply app_inv_head in G4.
    split; [now apply type_name_inj|]. split; [exact G3|]. unfold same_result. congruence.
  - vm_compute. intuition discriminate.
  - vm_compute. intuition discriminate.
Qed.

Lemma alike_print : forall a d b, alike same_result a b -> print_tree printable P h d a = print_tree printable P h' d b.
Proof.
  induction a as [c t i r ks IH] using ast_ind'. intros d b H. inversion H as [? ? ? ? ? c' t' i' r' ks' T V W F]; subst. cbn [print_tree].
  assert (E : node_line printable P h d t r = node_line printable P h' d t' r') by (unfold node_line; rewrite W, T, V; reflexivity).
  rewrite E. destruct (node_line printable P h' d t' r') as [x|e]; [|reflexivity]. cbn [bind].
  match goal with |- bind ?m _ = bind ?m' _ => assert (G : m = m'); [|now rewrite G] end.
  clear - IH F. induction F as [|k k' ks ks' Hk _ IHF]; [reflexivity|]. inversion IH; subst.
  rewrite (H1 (d + 3)%nat k' Hk). rewrite IHF by assumption. reflexivity.
Qed.
End Form.

Section Labels.
Variable R : option rval -> option rval -> Prop.
Lemma labels_alike : forall a d b x y, below d x -> below d y ->
  Forall2 (same_label R) (preorder d a ++ x) (preorder d b ++ y) -> alike R a b /\ Forall2 (same_label R) x y.
Proof.
  induction a as [c t i r ks IH] using ast_ind'. intros d [c' t' i' r' ks'] x y X Y F. cbn [preorder app] in F.
  inversion F as [|? ? ? ? (_ & T & V & W) F']; subst. cbn [snd n_tok n_result] in T, V, W.
  assert (G : Forall2 (alike R) ks ks' /\ Forall2 (same_label R) x y); [|destruct G; split; [now constructor|assumption]].
  clear F T V W. revert ks' F'. induction IH as [|k ks Hk _ IHk]; intros [|k' ks'] F; cbn [flat_map app] in F; rewrite <- ?app_assoc in F.
  - auto.
  - exfalso. destruct (preorder_head k' (S d)) as [q Eq]. rewrite Eq in F. destruct x as [|e x]; inversion F as [|? ? ? ? (D & _) ?]; subst.
    cbn in X, D. lia.
  - exfalso. destruct (preorder_head k (S d)) as [q Eq]. rewrite Eq in F. destruct y as [|e y]; inversion F as [|? ? ? ? (D & _) ?]; subst.
    cbn in Y, D. lia.
  - assert (B : forall l z, below d z -> below (S d) (flat_map (preorder (S d)) l ++ z)).
    { intros [|m l] z Z; cbn [flat_map app].
      - destruct z; cbn in *; [exact I|lia].
      - destruct (preorder_head m (S d)) as [q ->]. cbn. lia. }
    apply Hk in F as [A F]; auto. destruct (IHk ks' F) as [G1 G2]. auto.
Qed.

End Labels.

(** ** Policies *)

Definition end_of (c : nclass) : list token := match c with CSet (Some e) => [e] | _ => [] end.
Fixpoint all_tokens (p : ptree) : list token := let 'PT c t ks := p in (t :: end_of c) ++ flat_map all_tokens ks.

Lemma all_tokens_erase : forall a t, In t (all_tokens (erase a)) <-> exists n, In n (subtrees a) /\ In t (tokens_of n).
Proof.
  induction a as [c t i r ks IH] using ast_ind'. intros u. cbn [erase all_tokens subtrees n_kids]. rewrite in_app_iff.
  assert (K : In u (flat_map all_tokens (map erase ks)) <-> exists n, In n (flat_map subtrees ks) /\ In u (tokens_of n)).
  { induction IH as [|k ks H _ IHk]; [cbn; firstorder|]. cbn [map flat_map]. rewrite in_app_iff, H, IHk. setoid_rewrite in_app_iff. firstorder. }
  rewrite K. split.
  - intros [H|(n & N & H)]; [exists (Node c t i r ks)|exists n]; split; auto; [now left|now right].
  - intros (n & [<-|N] & H); [left; exact H|right; eauto].
Qed.

Section Tokens.
Variable Q : token -> Prop.
Lemma at_atomic u a : g_atomic u a -> Forall Q u -> Forall Q (all_tokens a).
Proof. destruct 1; intros H0; inversion H0; subst; cbn; auto. Qed.
Lemma at_att u a : g_att u a -> Forall Q u -> Forall Q (all_tokens a).
Proof. destruct 1; intros H0; inversion H0; subst; cbn; auto. Qed.
Lemma at_setval u l : g_setval u l -> Forall Q u -> Forall Q (flat_map all_tokens l).
Proof.
  induction 1 as [u a H|u a c v l H Hc Hl IH]; intros Hf; cbn [flat_map].
  - rewrite app_nil_r. eapply at_atomic; eauto.
  - split_forall. apply Forall_app. split; [eapply at_atomic; eauto|auto].
Qed.
Lemma at_var u a : g_var u a -> Forall Q u -> Forall Q (all_tokens a).
Proof.
  destruct 1 as [u a H|u a H|u a H]; intros Hf; [eapply at_atomic; eauto| |eapply at_att; eauto].
  destruct H as [lb rb Hl Hr|lb u l rb Hl Hs Hr]; split_forall; cbn [all_tokens flat_map end_of app]; constructor; auto; constructor; auto.
  eapply at_setval; eauto.
Qed.
Lemma at_boolvar u a : g_boolvar u a -> Forall Q u -> Forall Q (all_tokens a).
Proof. destruct 1 as [t H|u a H]; intros Hf; [split_forall; cbn; auto|eapply at_att; eauto]. Qed.
Lemma at_all :
  (forall u a, g_exp u a -> Forall Q u -> Forall Q (all_tokens a)) /\
  (forall u a, g_term u a -> Forall Q u -> Forall Q (all_tokens a)) /\
  (forall u a, g_policy u a -> Forall Q u -> Forall Q (all_tokens a)).
Proof.
  apply g_mind; auto.
  - intros u l o v r Hl Ho Hr Hf. split_forall. cbn [all_tokens flat_map end_of app]. rewrite app_nil_r. constructor; auto.
    apply Forall_app. split; eapply at_var; eauto.
  - intros u b. apply at_boolvar.
  - intros t u b Ht Hb Hf. split_forall. cbn [all_tokens flat_map end_of app]. rewrite app_nil_r. constructor; auto. eapply at_boolvar; eauto.
  - intros lp u p rp Hl Hp IH Hr Hf. split_forall. auto.
  - intros t lp u p rp Ht Hl Hp IH Hr Hf. split_forall. cbn [all_tokens flat_map end_of app]. rewrite app_nil_r. constructor; auto.
  - intros u l a v r Hl IHl _ Hr IHr Hf. split_forall. cbn [all_tokens flat_map end_of app]. rewrite app_nil_r. constructor; auto.
    apply Forall_app. split; auto.
  - intros u l a v r Hl IHl _ Hr IHr Hf. split_forall. cbn [all_tokens flat_map end_of app]. rewrite app_nil_r. constructor; auto.
    apply Forall_app. split; auto.
Qed.
End Tokens.

(** What the lexer guarantees: positions in the text, one empty value for each type up to the sign of a
    zero, and no line breaks. *)
Definition blank_of (ty : ttype) (v : tokval) : Prop :=
  match ty with
  | INT => v = TInt 0 | STRING => v = TStr [] | FLOAT => exists s, v = TFloat (S754_zero s) | _ => v = TNone
  end.
Definition lexed (t : token) : Prop :=
  0 <= t_pos t /\ (empty_value (t_val t) -> blank_of (t_type t) (t_val t)) /\ ~ In nl (value_text (t_val t)).

Lemma id_no_nl U l : Forall (id_char U) l -> ~ In nl l.
Proof. intros F H. rewrite Forall_forall in F. apply F in H as [H|[H|H]]; vm_compute in H; discriminate. Qed.

Lemma lexeme_lexed U s rest ty v p : 0 <= p -> lexeme U s rest ty v -> lexed (Tok ty p v).
Proof.
  intros Hp H. split; [exact Hp|]. cbn [t_val t_type].
  assert (E : forall c r, ~ empty_value (TStr (c :: r))).
  { intros c r [X|[X|[X|[f X]]]]; discriminate. }
  destruct H as [ty v Hs|Es Hn|Es Hn|body Es Hb|neg ds n Es Hne Hf Hv Hn|neg ds es n f Es Hne Hnes Hf Hfe Hv Hn Hr
                |c s' kw ty v Es Hc Hf Hl Hk Hn|c s' d id' cat ty Es Hc Hf Hf2 Hl Hk Hn].
  - destruct Hs; (split; [try (intros _; reflexivity); intros X; exfalso; exact (E _ _ X)|vm_compute; intuition discriminate]).
  - split; [intros X; exfalso; exact (E _ _ X)|vm_compute; intuition discriminate].
  - split; [intros X; exfalso; exact (E _ _ X)|vm_compute; intuition discriminate].
  - split; [intros [X|[X|[X|[f X]]]]; try discriminate; exact X|]. cbn [value_text]. intros X. rewrite Forall_forall in Hb. apply Hb in X.
    unfold nl in X. lia.
  - split; [intros [X|[X|[X|[f X]]]]; try discriminate; exact X|]. intros [].
  - split; [intros [X|[X|[X|[b X]]]]; try discriminate; exists b; exact X|]. intros [].
  - destruct Hk; (split; [intros X; exfalso; exact (E _ _ X)|vm_compute; intuition discriminate]).
  - assert (NI : ~ In nl (d :: id')) by (eapply id_no_nl; eauto).
    destruct Hk; (split; [intros X; exfalso; exact (E _ _ X)|exact NI]).
Qed.

Lemma tiles_lexed U p text ts : tiles U p text ts -> 0 <= p -> Forall lexed ts.
Proof.
  induction 1 as [p ws Hw|p ws s rest ty v ts Hw Hl Ht IH]; intros Hp; constructor.
  - split; [cbn [t_pos]; unfold LexSpec.len; lia|]. split; [intros _; reflexivity|intros []].
  - constructor.
  - eapply lexeme_lexed; eauto. unfold LexSpec.len. lia.
  - apply IH. unfold LexSpec.len. lia.
Qed.

(** The kind of value of a type. *)
Definition kind_of (ty : ttype) (v : tokval) : Prop :=
  match ty with
  | INT => exists z, v = TInt z | FLOAT => exists f, v = TFloat f | STRING => exists s, v = TStr s | _ => v = TNone \/ exists s, v = TStr s
  end.

Lemma tiles_kinds U p text ts : tiles U p text ts -> Forall (fun t => kind_of (t_type t) (t_val t)) ts.
Proof.
  induction 1 as [p ws Hw|p ws s rest ty v ts Hw Hl Ht IH]; constructor; auto.
  - now left.
  - cbn [t_type t_val]. destruct Hl as [ty v Hs| | | | | |c s' kw ty v Es Hc Hf Hl Hk Hn|c s' d id' cat ty Es Hc Hf Hf2 Hl Hk Hn]; cbn [kind_of]; eauto.
    + destruct Hs; cbn [kind_of]; eauto.
    + destruct Hk; cbn [kind_of]; eauto.
    + destruct Hk; cbn [kind_of]; eauto.
Qed.

Lemma parsed_lexed U text last a n' : unicode_ok U -> parse_text U text last = Ok (a, n') ->
  forall n t, In n (subtrees a) -> In t (tokens_of n) -> lexed t.
Proof.
  intros uok H n t Hn Ht. apply C08_text_sound in H as (u & e & Hl & He & Hg); [|exact uok].
  apply (lex_text_iff U uok) in Hl as (ts' & E & Tl). injection E as <-. apply tiles_lexed in Tl; [|lia].
  apply Forall_app in Tl as [Tl _]. pose proof (proj2 (proj2 (at_all lexed)) u _ Hg Tl) as F. rewrite Forall_forall in F.
  apply F, all_tokens_erase. eauto.
Qed.

Lemma lexed_equal t u : lexed t -> lexed u -> same_token t u -> equal_token t u.
Proof.
  intros (P1 & B1 & _) (P2 & B2 & _) (T & Q & V). split; [exact T|]. split; [destruct Q; [assumption|lia]|].
  destruct V as [V|[V V']]; [now left|]. apply B1 in V. apply B2 in V'. rewrite <- T in V'.
  destruct (t_type t); cbn [blank_of] in V, V'; try (left; congruence). destruct V as [s V]. destruct V' as [s' V']. right. eauto.
Qed.

Lemma same_equal : forall a b, same_code a b ->
  (forall n t, In n (subtrees a) -> In t (tokens_of n) -> lexed t) ->
  (forall n t, In n (subtrees b) -> In t (tokens_of n) -> lexed t) -> equal_code a b.
Proof.
  induction a as [c t i r ks IH] using ast_ind'. intros b H A B. inversion H as [c1 t1 i1 r1 ks1 c' t' i' r' ks' C T F]; subst.
  constructor.
  - inversion C as [d|u v S]; subst; [constructor|]. constructor. apply lexed_equal; auto.
    + eapply A; [left; reflexivity|right; now left].
    + eapply B; [left; reflexivity|right; now left].
  - apply lexed_equal; auto; [eapply A|eapply B]; try (left; reflexivity).
  - assert (A' : forall n t, In n (flat_map subtrees ks) -> In t (tokens_of n) -> lexed t) by (intros n u N; apply A; cbn [subtrees n_kids]; now right).
    assert (B' : forall n t, In n (flat_map subtrees ks') -> In t (tokens_of n) -> lexed t) by (intros n u N; apply B; cbn [subtrees n_kids]; now right).
    clear A B C T H. induction F as [|k k' ks ks' S F IHF]; [constructor|]. inversion IH as [|? ? Hk IH']; subst. constructor.
    + apply Hk; auto; intros n u N; [apply A'|apply B']; cbn [flat_map]; apply in_app_iff; now left.
    + apply IHF; auto; intros n u N; [apply A'|apply B']; cbn [flat_map]; apply in_app_iff; now right.
Qed.

Lemma equal_token_same t u : equal_token t u -> same_token t u.
Proof.
  intros (T & Q & V). split; [exact T|]. split; [now left|]. destruct V as [V|(s & s' & V & V')]; [now left|].
  right. unfold empty_value. split; right; right; right; [exists s|exists s']; assumption.
Qed.
Lemma equal_same : forall a b, equal_code a b -> same_code a b.
Proof.
  induction a as [c t i r ks IH] using ast_ind'. intros b H. inversion H as [c1 t1 i1 r1 ks1 c' t' i' r' ks' C T F]; subst.
  constructor.
  - inversion C; subst; constructor. now apply equal_token_same.
  - now apply equal_token_same.
  - clear - IH F. induction F as [|k k' ks ks' S F IHF]; [constructor|]. inversion IH; subst. constructor; auto.
Qed.
