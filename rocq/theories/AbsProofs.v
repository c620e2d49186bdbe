(** * AbsProofs: every accepted policy text stands for a policy *)

From Coq Require Import NArith ZArith List Bool String Lia.
From Verif Require Import PyBase PyNum Lexer LexSpec LexProofs LexProofs2 LexProps Values Ast Parser
  Grammar ParseProofs ParseProofs2 Syntax PrintProofs ParseProps.
Import ListNotations.
Open Scope Z_scope.

(** The value of a lexer token fits its type. *)
Definition tok_ok (t : token) : Prop :=
  match t_type t with
  | INT => exists z, t_val t = TInt z
  | FLOAT => exists f, t_val t = TFloat f
  | STRING | USR_ATT | OBJ_ATT | ENV_ATT | ADM_ATT | CON_ATT => exists s, t_val t = TStr s
  | BOOL => exists x, t_val t = TStr (tri_str x)
  | OP => exists o, t_val t = TStr (cmp_str o)
  | _ => True
  end.

Lemma lexeme_tok_ok U s rest ty v p : lexeme U s rest ty v -> tok_ok (Tok ty p v).
Proof.
  destruct 1 as [ty v Hs| | | | | |c s' kw ty v Hs Hc Hf Hl Hk Hr|c s' d i cat ty Hs Hc Hf Hi Hl Hk Hr]; cbn; eauto.
  - destruct Hs; cbn; auto; [exists OpEq|exists OpGe|exists OpLe|exists OpNe]; reflexivity.
  - now exists OpGt.
  - now exists OpLt.
  - destruct Hk; cbn; auto; [exists OpIn|exists OpSubset|exists TRUE|exists FALSE|exists UNDEF]; reflexivity.
  - destruct Hk; cbn; eauto.
Qed.

Lemma tiles_tok_ok U p text ts : tiles U p text ts -> Forall tok_ok ts.
Proof.
  induction 1 as [p ws Hw|p ws s rest ty v ts Hw Hl Ht IH]; constructor; auto.
  - exact I.
  - eapply lexeme_tok_ok; eauto.
Qed.

Lemma lex_tok_ok U text ts : unicode_ok U -> lex_text U text = Ok ts -> Forall tok_ok ts.
Proof.
  intros uok H. apply (lex_text_iff U uok) in H as (ts' & -> & Ht).
  constructor; [exact I|]. eapply tiles_tok_ok; eauto.
Qed.

Ltac tok := match goal with
  | H : Forall tok_ok [?t] |- _ => inversion H as [|? ? Htok _]; subst; unfold tok_ok in Htok end.

Lemma abs_atomic u a : g_atomic u a -> Forall tok_ok u -> exists x, abs_atom a = Some x /\
  abs_operand a = Some (OAtom x).
Proof.
  destruct 1 as [t H|t H|t H|t H]; intros Hf; tok; rewrite H in Htok;
  destruct t as [ty p v]; cbn in *; try destruct Htok as [x ->]; eauto.
Qed.

Lemma abs_g_att u a : g_att u a -> Forall tok_ok u -> exists c n, abs a = Some (PAtt c n) /\
  abs_operand a = Some (OAtt c n).
Proof.
  destruct 1 as [t H|t H|t H|t H|t H]; intros Hf; tok; rewrite H in Htok;
  destruct t as [ty p v]; cbn in *; destruct Htok as [x ->]; eauto.
Qed.

Lemma abs_setval u l : g_setval u l -> Forall tok_ok u -> exists xs, optM abs_atom l = Some xs.
Proof.
  induction 1 as [u a H|u a c v l H Hc Hl IH]; intros Hf.
  - destruct (abs_atomic u a H Hf) as (x & Hx & _). cbn. rewrite Hx. eauto.
  - apply Forall_app in Hf as [Hf1 Hf2]. inversion Hf2; subst.
    destruct (abs_atomic u a H Hf1) as (x & Hx & _). destruct IH as [xs Hxs]; auto.
    cbn. rewrite Hx, Hxs. eauto.
Qed.

Lemma abs_set u a : g_set u a -> Forall tok_ok u -> exists o, abs_operand a = Some o.
Proof.
  destruct 1 as [lb rb Hl Hr|lb u l rb Hl Hs Hr]; intros Hf.
  - eexists. reflexivity.
  - inversion Hf as [|? ? _ Hf2]; subst. apply Forall_app in Hf2 as [Hf2 _].
    destruct (abs_setval u l Hs Hf2) as [xs Hx]. cbn. rewrite Hx. cbn. eauto.
Qed.

Lemma abs_var u a : g_var u a -> Forall tok_ok u -> exists o, abs_operand a = Some o.
Proof.
  destruct 1 as [u a H|u a H|u a H]; intros Hf.
  - destruct (abs_atomic u a H Hf) as (x & _ & Hx). eauto.
  - eapply abs_set; eauto.
  - destruct (abs_g_att u a H Hf) as (c & n & _ & Hx). eauto.
Qed.

Lemma abs_boolvar u a : g_boolvar u a -> Forall tok_ok u -> exists p, abs a = Some p.
Proof.
  destruct 1 as [t H|u a H]; intros Hf.
  - tok. rewrite H in Htok. destruct Htok as [x Hx]. cbn. rewrite Hx. destruct x; cbn; eauto.
  - destruct (abs_g_att u a H Hf) as (c & n & Hx & _). eauto.
Qed.

Ltac split_forall := repeat match goal with
  | H : Forall _ (_ ++ _) |- _ => apply Forall_app in H as [? ?]
  | H : Forall _ (_ :: _) |- _ => inversion H; clear H; subst
  | H : exists _, _ |- _ => destruct H as [? H]
  end.

Lemma abs_total :
  (forall u a, g_exp u a -> Forall tok_ok u -> exists p, abs a = Some p) /\
  (forall u a, g_term u a -> Forall tok_ok u -> exists p, abs a = Some p) /\
  (forall u a, g_policy u a -> Forall tok_ok u -> exists p, abs a = Some p).
Proof.
  apply g_mind; auto.
  - intros u l o v r Hl Ho Hr Hf. split_forall.
    destruct (abs_var u l) as [a Ha]; auto. destruct (abs_var v r) as [b Hb]; auto.
    match goal with H : tok_ok o |- _ => unfold tok_ok in H; rewrite Ho in H; destruct H as [x Hx] end.
    cbn. rewrite Hx, Ha, Hb. destruct x; cbn; eauto.
  - intros u b. apply abs_boolvar.
  - intros t u b Ht Hb Hf. split_forall. destruct (abs_boolvar u b) as [p Hp]; auto.
    cbn. rewrite Hp. cbn. eauto.
  - intros lp u p rp Hl Hp IH Hr Hf. split_forall. auto.
  - intros t lp u p rp Ht Hl Hp IH Hr Hf. split_forall. destruct IH as [q Hq]; auto.
    cbn. rewrite Hq. cbn. eauto.
  - intros u l a v r Hl IHl [Ha Hv] Hr IHr Hf. split_forall. destruct IHl as [p Hp]; auto.
    destruct IHr as [q Hq]; auto. cbn. rewrite Hp, Hq, Hv. cbn. eauto.
  - intros u l a v r Hl IHl [Ha Hv] Hr IHr Hf. split_forall. destruct IHl as [p Hp]; auto.
    destruct IHr as [q Hq]; auto. cbn. rewrite Hp, Hq, Hv. cbn. eauto.
Qed.

Lemma parse_text_abs U text last a n' : unicode_ok U -> parse_text U text last = Ok (a, n') ->
  exists p, abs (erase a) = Some p.
Proof.
  intros uok H. apply C08_text_sound in H as (u & e & Hl & He & Hg); auto.
  apply lex_tok_ok in Hl; auto. split_forall. eapply abs_total; eauto.
Qed.
