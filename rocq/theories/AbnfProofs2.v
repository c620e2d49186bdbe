(** * AbnfProofs2: what is accepted is written in the grammar *)

From Coq Require Import NArith ZArith List Bool String Lia.
From Verif Require Import PyBase PyNum FloatSpec FloatLit Lexer LexSpec LexProofs LexProofs2 LexCase Grammar Abnf AbnfProofs.
Import ListNotations.
Open Scope Z_scope.

Notation impl := (text_of true implemented).

Lemma singles (s : str) : List.concat (map (fun c => [c]) s) = s.
Proof. induction s as [|c s IH]; cbn; auto. now rewrite IH. Qed.
Lemma singles_all (P : str -> Prop) (s : str) : Forall (fun c => P [c]) s -> Forall P (map (fun c => [c]) s).
Proof. intros H. now apply Forall_map. Qed.
Lemma same_refl t : same_text (lit t) t.
Proof. reflexivity. Qed.

Lemma impl_id s : s <> [] -> Forall name_char s -> impl Rid s.
Proof.
  intros Hn H. apply text_of_fold. cbn. exists (map (fun c => [c]) s). repeat split.
  - now destruct s.
  - now rewrite singles.
  - apply singles_all. eapply Forall_impl; [|exact H]. intros c [[Hc|Hc]|[Hc| ->]].
    + left; left; left. eauto.
    + left; left; right. eauto.
    + left; right. eauto.
    + right. reflexivity.
Qed.
Lemma den_digits L t s : s <> [] -> Forall (fun c => 48 <= c <= 57)%N s -> den true L t (Plus DIGIT) s.
Proof.
  intros Hn H. cbn. exists (map (fun c => [c]) s). repeat split.
  - now destruct s.
  - now rewrite singles.
  - apply singles_all. eapply Forall_impl; [|exact H]. cbn. eauto.
Qed.
Lemma impl_int neg ds : ds <> [] -> Forall (fun c => 48 <= c <= 57)%N ds -> impl Rint (sign_of neg ++ ds).
Proof.
  intros Hn H. apply text_of_fold. cbn [implemented documented tight]. cbn [den].
  exists (sign_of neg), [], ds. repeat split.
  - destruct neg; [right; reflexivity|left; reflexivity].
  - now apply (den_digits (text_of true implemented) true).
Qed.
Lemma impl_float neg ds es : ds <> [] -> es <> [] -> Forall (fun c => 48 <= c <= 57)%N ds -> Forall (fun c => 48 <= c <= 57)%N es ->
  impl Rfloat (sign_of neg ++ ds ++ 46%N :: es).
Proof.
  intros Hn Hn2 H H2. apply text_of_fold. cbn [implemented documented tight]. cbn [den].
  exists (sign_of neg ++ ds), [], (46%N :: es). repeat split.
  - now rewrite <- app_assoc.
  - now apply impl_int.
  - exists [46%N], [], es. repeat split. now apply (den_digits (text_of true implemented) true).
Qed.
Lemma impl_string body : Forall (fun c => 32 <= c /\ c <= 126 /\ c <> 34)%N body -> impl Rstring (34%N :: body ++ [34%N]).
Proof.
  intros H. apply text_of_fold. cbn [implemented documented tight]. cbn [den].
  exists [34%N], [], (body ++ [34%N]). repeat split.
  - exists 34%N. split; auto. lia.
  - exists body, [], [34%N]. repeat split.
    + exists (map (fun c => [c]) body). rewrite singles. split; auto. apply singles_all.
      eapply Forall_impl; [|exact H]. intros c Hc. cbv beta in Hc. cbn [den].
      destruct (N_le_dec c 33); [left|right]; exists c; split; auto; lia.
    + exists 34%N. split; auto. lia.
Qed.

Section WithUnicode.
Variable U : unicode.
Variable uok : unicode_ok U.

Lemma digits_ascii ds : is_ascii ds = true -> Forall (digit U) ds -> Forall (fun c => 48 <= c <= 57)%N ds.
Proof.
  intros Ha H. apply ascii_forall in Ha. rewrite Forall_forall in *. intros c Hc. apply (digit_is U); auto. now apply H.
Qed.
Lemma names_ascii s : is_ascii s = true -> Forall (id_char U) s -> Forall name_char s.
Proof.
  intros Ha H. apply ascii_forall in Ha. rewrite Forall_forall in *. intros c Hc. apply (id_is U); auto.
Qed.

(** The text of a token. *)
Definition tok_text (ty : ttype) (v : tokval) (s : str) : Prop :=
  match ty with
  | OP => impl Rop s
  | BOOL_OP => (v = TStr (lit "AND") -> same_text s "AND") /\ (v = TStr (lit "OR") -> same_text s "OR")
  | NOT_OP => same_text s "NOT"
  | USR_ATT | OBJ_ATT | ENV_ATT | ADM_ATT | CON_ATT => impl Ratt_name s
  | NULL => same_text s "NULL"
  | BOOL => impl Rboolean s
  | INT => impl Rint s
  | FLOAT => impl Rfloat s
  | STRING => impl Rstring s
  | LSET => same_text s "{" | RSET => same_text s "}"
  | LPARN => same_text s "(" | RPARN => same_text s ")" | COMMA => same_text s ","
  | _ => False
  end.

Ltac op_case := apply text_of_fold; cbn [implemented documented tight den];
  repeat first [ left; now (unfold same_text; vm_compute; reflexivity)
               | right; now (unfold same_text; vm_compute; reflexivity) | left ].

Lemma lexeme_text s rest ty v : lexeme U s rest ty v -> is_ascii s = true -> tok_text ty v s.
Proof.
  intros H Ha.
  destruct H as [ty v Hs|E|E|body E Hb|neg ds n E Hn Hd|neg ds es n f E Hn Hm Hd He|c s' kw ty v E Hc Hi Hk Hw|c s' d id' cat ty E Hc Hi Hd Hk Hw].
  - destruct Hs; try reflexivity; op_case.
  - subst. op_case.
  - subst. op_case.
  - subst. now apply impl_string.
  - subst. apply ascii_app2 in Ha as [_ Ha]. apply impl_int; auto. now apply digits_ascii.
  - subst. apply ascii_app2 in Ha as [_ Ha]. apply ascii_app2 in Ha as [Ha Hb]. apply ascii_cons in Hb as [_ Hb].
    apply impl_float; auto; now apply digits_ascii.
  - unfold py_lower in Hk. rewrite Ha in Hk.
    assert (S : forall t, map lower_c (lit t) = kw -> same_text s t) by (intros t <-; exact Hk).
    destruct Hw; cbn [tok_text].
    all: try (apply S; vm_compute; reflexivity).
    1,2: apply text_of_fold; cbn [implemented documented tight den].
    + left. right. apply S. vm_compute; reflexivity.
    + right. apply S. vm_compute; reflexivity.
    + split; intros X; [|vm_compute in X; discriminate X]. apply S. vm_compute; reflexivity.
    + split; intros X; [vm_compute in X; discriminate X|]. apply S. vm_compute; reflexivity.
    + apply text_of_fold; cbn [implemented documented tight den]. left. left. apply S. vm_compute; reflexivity.
    + apply text_of_fold; cbn [implemented documented tight den]. left. right. apply S. vm_compute; reflexivity.
    + apply text_of_fold; cbn [implemented documented tight den]. right. apply S. vm_compute; reflexivity.
  - subst s. apply ascii_app2 in Ha as [Ha Hb]. apply ascii_cons in Hb as [_ Hb].
    unfold py_lower in Hk. rewrite Ha in Hk. apply (names_ascii _ Hb) in Hd.
    apply impl_id in Hd; [|discriminate].
    assert (S : forall t, map lower_c (lit t) = cat ++ [46%N] -> den true impl true (Seq (Txt t) (Ref Rid)) ((c :: s') ++ 46%N :: d :: id')).
    { intros t Ht. exists ((c :: s') ++ [46%N]), [], (d :: id'). repeat split; auto.
      - now rewrite <- app_assoc.
      - unfold den, same_text. rewrite Ht, map_app, Hk. reflexivity. }
    destruct Hw; cbn [tok_text]; apply text_of_fold; cbn [implemented documented tight]; cbn [den].
    + do 4 left. apply text_of_fold. apply S. vm_compute; reflexivity.
    + do 3 left. right. apply text_of_fold. apply S. vm_compute; reflexivity.
    + do 2 left. right. apply text_of_fold. apply S. vm_compute; reflexivity.
    + left. right. apply text_of_fold. apply S. vm_compute; reflexivity.
    + right. apply text_of_fold. apply S. vm_compute; reflexivity.
Qed.

(** ** Phrases *)

Notation segs := (segs U).
Definition writes (u : list token) (P : str -> Prop) : Prop :=
  forall it k, segs it k (map tv u) -> is_ascii (layout it []) = true -> P (core it).

Lemma writes_one t (P : str -> Prop) : (forall s, tok_text (t_type t) (t_val t) s -> P s) -> writes [t] P.
Proof.
  intros H it k Hs Ha. inversion Hs as [|w s it0 k0 ty v tvs Hw Hl Hr]; subst. inversion Hr; subst.
  cbn in *. rewrite app_nil_r in *. apply ascii_app2 in Ha as [_ Ha]. apply H. eapply lexeme_text; eauto.
Qed.
Lemma segs_nonempty it k tvs : segs it k tvs -> tvs <> [] -> it <> [].
Proof. destruct 1; [congruence|discriminate]. Qed.

(** Two phrases one after the other. *)
Lemma writes_app u v (P Q R : str -> Prop) : u <> [] -> writes u P -> writes v Q ->
  (forall x w y, P x -> Q y -> gap true false x w y -> R (x ++ w ++ y)) -> writes (u ++ v) R.
Proof.
  intros Hn Hu Hv HR it k Hs Ha. rewrite map_app in Hs. apply segs_split in Hs as (i1 & i2 & -> & H1 & H2).
  rewrite layout_app, layout_nil in Ha. apply ascii_app2 in Ha as [A1 A2].
  rewrite core_app by (eapply segs_nonempty; [exact H1|destruct u; [congruence|discriminate]]).
  apply HR; [eapply Hu; eauto|eapply Hv; eauto|]. eapply segs_gap; eauto.
Qed.
Lemma writes_seq u v (a b : abnf) : u <> [] -> writes u (den true impl false a) -> writes v (den true impl false b) ->
  writes (u ++ v) (den true impl false (Seq a b)).
Proof.
  intros Hn Hu Hv. eapply writes_app; eauto. intros x w y Hx Hy Hg. exists x, w, y. auto.
Qed.
Lemma writes_impl u (P Q : str -> Prop) : writes u P -> (forall s, P s -> Q s) -> writes u Q.
Proof. intros H HQ it k Hs Ha. apply HQ. eapply H; eauto. Qed.
Lemma writes_tok t e : (forall s, tok_text (t_type t) (t_val t) s -> den true impl false e s) -> writes [t] (den true impl false e).
Proof. apply writes_one. Qed.

Lemma writes_att u p : g_att u p -> writes u (impl Ratt_name).
Proof. destruct 1; apply writes_one; rewrite H; auto. Qed.
Lemma writes_atomic u p : g_atomic u p -> writes u (impl Ratomic).
Proof.
  destruct 1; apply writes_one; rewrite H; intros s Hs; apply text_of_fold; cbn [implemented documented tight den]; auto.
Qed.
Lemma atomic_nonempty u p : g_atomic u p -> u <> [].
Proof. destruct 1; discriminate. Qed.
Lemma writes_setval u l : g_setval u l -> writes u (impl Rsetval).
Proof.
  induction 1 as [u a H|u a c v l H Hc Hv IH].
  - eapply writes_impl; [eapply writes_atomic; eauto|]. intros s Hs. apply text_of_fold. left. exact Hs.
  - apply writes_impl with (den true impl false (Seq Ratomic (Seq (Txt ",") Rsetval))).
    + apply writes_seq; [eapply atomic_nonempty; eauto|eapply writes_atomic; eauto|].
      apply (writes_seq [c]); [discriminate| |exact IH]. apply writes_tok. rewrite Hc. auto.
    + intros s Hs. apply text_of_fold. right. exact Hs.
Qed.
Lemma setval_nonempty u l : g_setval u l -> u <> [].
Proof. destruct 1 as [u a H|u a c v l H Hc Hv]; [eapply atomic_nonempty; eauto|]. destruct u; discriminate. Qed.
Lemma writes_set u p : g_set u p -> writes u (impl Rset).
Proof.
  destruct 1 as [lb rb H1 H2|lb u l rb H1 Hu H2].
  - apply writes_impl with (den true impl false (Seq (Txt "{") (Txt "}"))).
    + apply (writes_seq [lb] [rb]); [discriminate| |]; apply writes_tok; rewrite ?H1, ?H2; auto.
    + intros s Hs. apply text_of_fold. left. exact Hs.
  - apply writes_impl with (den true impl false (Seq (Txt "{") (Seq Rsetval (Txt "}")))).
    + apply (writes_seq [lb]); [discriminate|apply writes_tok; rewrite H1; auto|].
      apply writes_seq; [eapply setval_nonempty; eauto|eapply writes_setval; eauto|].
      apply writes_tok; rewrite H2; auto.
    + intros s Hs. apply text_of_fold. right. exact Hs.
Qed.
Lemma writes_var u p : g_var u p -> writes u (impl Rvar).
Proof.
  destruct 1 as [u a H|u a H|u a H]; (eapply writes_impl;
    [(eapply writes_atomic; exact H) || (eapply writes_set; exact H) || (eapply writes_att; exact H)|]);
  intros s Hs; apply text_of_fold; cbn [implemented documented tight den].
  - left. apply text_of_fold. left. exact Hs.
  - left. apply text_of_fold. right. exact Hs.
  - right. exact Hs.
Qed.
Lemma var_nonempty u p : g_var u p -> u <> [].
Proof.
  destruct 1 as [u a H|u a H|u a H]; [eapply atomic_nonempty; eauto| |]; destruct H; discriminate.
Qed.
Lemma writes_boolvar u p : g_boolvar u p -> writes u (impl Rbool_var).
Proof.
  destruct 1 as [t H|u a H].
  - apply writes_one. rewrite H. intros s Hs. apply text_of_fold. left. exact Hs.
  - eapply writes_impl; [eapply writes_att; exact H|]. intros s Hs. apply text_of_fold. right. exact Hs.
Qed.
Lemma boolvar_nonempty u p : g_boolvar u p -> u <> [].
Proof. destruct 1 as [|u a H]; [discriminate|]. destruct H; discriminate. Qed.

Lemma word_or t : is_word BOOL_OP "OR" t -> writes [t] (den true impl false (Txt "OR")).
Proof. intros [H1 H2]. apply writes_tok. rewrite H1, H2. intros s [_ H]. now apply H. Qed.
Lemma word_and t : is_word BOOL_OP "AND" t -> writes [t] (den true impl false (Txt "AND")).
Proof. intros [H1 H2]. apply writes_tok. rewrite H1, H2. intros s [H _]. now apply H. Qed.

(** [NOT] left out. *)
Lemma opt_absent s e : den true impl false e s -> den true impl false (Seq (Opt (Txt "NOT")) e) s.
Proof.
  intros H. exists [], [], s. repeat split; auto.
  - left. reflexivity.
  - intros _ X. apply word_alpha in X. inversion X.
Qed.

Lemma writes_phrases :
  (forall u p, g_exp u p -> u <> [] /\ writes u (impl Rexp)) /\
  (forall u p, g_term u p -> u <> [] /\ writes u (impl Rterm)) /\
  (forall u p, g_policy u p -> u <> [] /\ writes u (impl Rpolicy)).
Proof.
  apply g_mind.
  - intros u l o v r Hl Ho Hr. split; [destruct u; discriminate|].
    apply writes_impl with (den true impl false (Seq Rvar (Seq Rop Rvar))).
    + apply writes_seq; [eapply var_nonempty; eauto|eapply writes_var; eauto|].
      apply (writes_seq [o]); [discriminate|apply writes_tok; rewrite Ho; auto|eapply writes_var; eauto].
    + intros s Hs. apply text_of_fold. left. left. exact Hs.
  - intros u b H. split; [eapply boolvar_nonempty; eauto|].
    eapply writes_impl; [eapply writes_boolvar; eauto|].
    intros s Hs. apply text_of_fold. left. right. now apply opt_absent.
  - intros t u b Ht H. split; [discriminate|].
    apply writes_impl with (den true impl false (Seq (Opt (Txt "NOT")) Rbool_var)).
    + apply (writes_seq [t]); [discriminate|apply writes_tok; rewrite Ht; intros s; right; auto|eapply writes_boolvar; eauto].
    + intros s Hs. apply text_of_fold. left. right. exact Hs.
  - intros lp u p rp H1 _ [Hn Hu] H2. split; [discriminate|].
    apply writes_impl with (den true impl false (Seq (Txt "(") (Seq Rpolicy (Txt ")")))).
    + apply (writes_seq [lp]); [discriminate|apply writes_tok; rewrite H1; auto|].
      apply writes_seq; auto. apply writes_tok; rewrite H2; auto.
    + intros s Hs. apply text_of_fold. right. now apply opt_absent.
  - intros t lp u p rp Ht H1 _ [Hn Hu] H2. split; [discriminate|].
    apply writes_impl with (den true impl false (Seq (Opt (Txt "NOT")) (Seq (Txt "(") (Seq Rpolicy (Txt ")"))))).
    + apply (writes_seq [t]); [discriminate|apply writes_tok; rewrite Ht; intros s; right; auto|].
      apply (writes_seq [lp]); [discriminate|apply writes_tok; rewrite H1; auto|].
      apply writes_seq; auto. apply writes_tok; rewrite H2; auto.
    + intros s Hs. apply text_of_fold. right. exact Hs.
  - intros u e _ [Hn Hu]. split; auto. eapply writes_impl; [exact Hu|]. intros s Hs. apply text_of_fold. right. exact Hs.
  - intros u l a v r _ [Hn Hu] Ha _ [Hm Hv]. split; [destruct u; discriminate|].
    apply writes_impl with (den true impl false (Seq Rterm (Seq (Txt "AND") Rexp))).
    + apply writes_seq; auto. apply (writes_seq [a]); [discriminate|now apply word_and|exact Hv].
    + intros s Hs. apply text_of_fold. left. exact Hs.
  - intros u e _ [Hn Hu]. split; auto. eapply writes_impl; [exact Hu|]. intros s Hs. apply text_of_fold. right. exact Hs.
  - intros u l a v r _ [Hn Hu] Ha _ [Hm Hv]. split; [destruct u; discriminate|].
    apply writes_impl with (den true impl false (Seq Rpolicy (Seq (Txt "OR") Rterm))).
    + apply writes_seq; auto. apply (writes_seq [a]); [discriminate|now apply word_or|exact Hv].
    + intros s Hs. apply text_of_fold. left. exact Hs.
Qed.

End WithUnicode.
