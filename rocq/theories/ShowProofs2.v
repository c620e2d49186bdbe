(** * ShowProofs2: printed trees can be read back *)

From Coq Require Import NArith ZArith List Bool String Lia SpecFloat.
From Verif Require Import PyBase PyNum Lexer LexSpec Values Ast Symbols AttCert Errors Demo LexDiag Diag Grammar
  ParseProofs2 CodecSpec CertProofs3 Show ShowSpec ShowProofs.
Import ListNotations.
Open Scope Z_scope.

(** ** repr() of a node *)

Lemma chars_ok_node c t i r ks : chars_ok (Node c t i r ks) ->
  Forall code_point (value_text (t_val t)) /\
  (forall e, c = CSet (Some e) -> Forall code_point (value_text (t_val e))) /\ Forall chars_ok ks.
Proof.
  intros H. split; [|split].
  - apply (H (Node c t i r ks)); now left.
  - intros e ->. apply (H (Node (CSet (Some e)) t i r ks)); [now left|]. right. now left.
  - apply Forall_forall. intros k K n u Hn Hu. apply (H n u); [|exact Hu]. cbn [subtrees n_kids]. right. apply in_flat_map. eauto.
Qed.

Lemma class_name_inj c d : class_name c = class_name d ->
  c = d \/ exists e e', c = CSet e /\ d = CSet e'.
Proof. destruct c, d; try (intros _; eauto; fail); vm_compute; discriminate. Qed.

Lemma class_head c : exists x r, class_name c = x :: r /\ name_char x.
Proof. pose proof (class_name_chars c) as F. destruct c; destruct (class_name _) as [|x r] eqn:E; try discriminate E; inversion F; eauto. Qed.

Section WithTexts.
Variable printable : N -> bool.
Variable P : pytext.
Hypothesis FT : float_texts P.
Notation node_repr := (node_repr printable P).
Notation token_repr := (token_repr printable P).

Lemma node_head a : exists x r, node_repr a = x :: r /\ name_char x.
Proof.
  destruct a as [c t i r ks]. cbn [Show.node_repr]. destruct (class_head c) as (x & y & -> & H). cbn [app]. exists x. eexists. split; [reflexivity|exact H].
Qed.

Lemma lit_lb : lit "[" = [91]%N. Proof. reflexivity. Qed.
Lemma lit_rb : lit "]" = [93]%N. Proof. reflexivity. Qed.
Lemma lit_lp : lit "(" = [40]%N. Proof. reflexivity. Qed.
Lemma lit_c : lit "," = [44]%N. Proof. reflexivity. Qed.
Lemma lit_none : lit "None" = [78; 111; 110; 101]%N. Proof. reflexivity. Qed.
Lemma lit_tok : lit "Token(TokenType." = 84%N :: lit "oken(TokenType.". Proof. reflexivity. Qed.

Definition reads_back (a : ast) : Prop := forall b x y, chars_ok a -> chars_ok b ->
  node_repr a ++ x = node_repr b ++ y -> same_code a b /\ x = y.

Lemma join_cons (sep x : str) l : join sep (x :: l) = x ++ match l with [] => [] | _ => sep ++ join sep l end.
Proof. destruct l; cbn [join]; [now rewrite app_nil_r|reflexivity]. Qed.

Lemma list_prefix ks : Forall reads_back ks -> forall ks' x y, Forall chars_ok ks -> Forall chars_ok ks' ->
  join (lit ", ") (map node_repr ks) ++ 93%N :: x = join (lit ", ") (map node_repr ks') ++ 93%N :: y ->
  Forall2 same_code ks ks' /\ x = y.
Proof.
  assert (NB : forall a (z w : str), node_repr a ++ z = 93%N :: w -> False).
  { intros a z w K. destruct (node_head a) as (c & r & E & H). rewrite E in K. cbn [app] in K. injection K as -> _.
    revert H. unfold name_char. lia. }
  induction 1 as [|k ks Hk _ IH]; intros [|k' ks'] x y A B E; cbn [map] in E; rewrite ?join_cons, <- ?app_assoc in E;
    inversion A; inversion B; subst.
  - cbn in E. injection E as ->. auto.
  - exfalso. cbn [join app] in E. symmetry in E. exact (NB _ _ _ E).
  - exfalso. exact (NB _ _ _ E).
  - apply Hk in E as [S E]; auto. destruct ks as [|k2 ks]; destruct ks' as [|k2' ks']; cbn [map] in E, IH; rewrite ?lit_cs in E; cbn [app] in E.
    + injection E as ->. auto.
    + discriminate.
    + discriminate.
    + injection E as E. apply (IH (k2' :: ks')) in E as [F ->]; auto.
Qed.

Lemma name_stop (x : str) : stops name_char (lit "(" ++ x).
Proof. rewrite lit_lp. cbn. unfold name_char. lia. Qed.

Lemma node_prefix : forall a, reads_back a.
Proof.
  induction a as [c t i r ks IH] using ast_ind'. intros [c' t' i' r' ks'] x y A B E.
  apply chars_ok_node in A as (At & Ae & Ak). apply chars_ok_node in B as (Bt & Be & Bk).
  cbn [Show.node_repr] in E. rewrite <- !app_assoc in E.
  apply (span_eq name_char) in E as [C E]; auto using class_name_chars, name_stop.
  apply app_inv_head in E. apply token_prefix in E as [T E]; auto.
  pose proof (list_prefix ks IH ks') as LP. unfold list_repr in E. rewrite ?lit_cs, ?lit_rp, ?lit_c, ?lit_lb, ?lit_rb in E.
  rewrite lit_cs in LP. 
  apply class_name_inj in C as [<-|(e & e' & -> & ->)].
  - destruct c as [| | | | | | | | |e| | | | | | |].
    10:{ rewrite <- ?app_assoc in E. cbn [app] in E. injection E as E. apply app_inv_head in E. injection E as E.
         apply LP in E as [F E]; auto. injection E as ->. split; [|reflexivity]. constructor; auto. constructor. }
    all: assert (G : Forall2 same_code ks ks' /\ x = y); [|destruct G as [G ->]; split; [constructor; auto; constructor|reflexivity]].
    all: destruct ks as [|k1 [|k2 [|k3 ks]]]; destruct ks' as [|m1 [|m2 [|m3 ks']]]; rewrite <- ?app_assoc in E; cbn [app] in E;
      try discriminate E; injection E as E; subst; auto.
    all: try (apply LP in E as [F E]; auto; injection E as ->; now auto).
    all: inversion IH as [|? ? R1 IH1]; subst; inversion Ak as [|? ? A1 Ak1]; inversion Bk as [|? ? B1 Bk1]; subst; apply R1 in E as [S1 E]; auto;
      try discriminate E; injection E as E; subst; auto.
    all: inversion IH1 as [|? ? R2 IH2]; subst; inversion Ak1 as [|? ? A2 Ak2]; inversion Bk1 as [|? ? B2 Bk2]; subst; apply R2 in E as [S2 E]; auto;
      injection E as ->; auto.
  - rewrite <- ?app_assoc in E. cbn [app] in E. injection E as E.
    assert (G : same_class (CSet e) (CSet e') /\ Forall2 same_code ks ks' /\ x = y);
      [|destruct G as (G & F & ->); split; [constructor; auto|reflexivity]].
    assert (NT : forall u z w, token_repr u ++ z = lit "None" ++ w -> False).
    { intros u z w K. rewrite token_repr_form, lit_tok, lit_none in K by exact FT. discriminate. }
    destruct e as [e|]; destruct e' as [e'|].
    + apply token_prefix in E as [S E]; auto. injection E as E. apply LP in E as [F E]; auto. injection E as ->. split; auto. now constructor.
    + exfalso. eapply NT; eauto.
    + exfalso. eapply NT; eauto.
    + apply app_inv_head in E. injection E as E. apply LP in E as [F E]; auto. injection E as ->. split; auto. constructor.
Qed.

Lemma same_node : forall a b, same_code a b -> node_repr a = node_repr b.
Proof.
  induction a as [c t i r ks IH] using ast_ind'. intros b H. inversion H as [c1 t1 i1 r1 ks1 c' t' i' r' ks' C T F]; subst.
  assert (M : map node_repr ks = map node_repr ks').
  { clear - IH F. induction F as [|k k' ks ks' S F IHF]; [reflexivity|]. inversion IH; subst. cbn [map]. f_equal; auto. }
  cbn [Show.node_repr]. rewrite (token_same printable P FT _ _ T), M.
  assert (K : match ks with [] => [] | [l] => lit ", " ++ node_repr l | [l; r] => lit ", " ++ node_repr l ++ lit ", " ++ node_repr r
              | _ => lit "," ++ list_repr (map node_repr ks') end
            = match ks' with [] => [] | [l] => lit ", " ++ node_repr l | [l; r] => lit ", " ++ node_repr l ++ lit ", " ++ node_repr r
              | _ => lit "," ++ list_repr (map node_repr ks') end).
  { destruct ks as [|k1 [|k2 [|k3 ks]]]; destruct ks' as [|m1 [|m2 [|m3 ks']]]; cbn [map] in M; try discriminate M; auto.
    - injection M as ->. reflexivity.
    - injection M as -> ->. reflexivity. }
  inversion C as [d|u v S]; subst.
  - destruct c'; rewrite ?K; reflexivity.
  - rewrite (token_same printable P FT _ _ S). reflexivity.
Qed.

End WithTexts.
