(** * ParseProofs2: ids, unambiguity, exceptions of the parser *)

From Coq Require Import NArith ZArith List Bool String Lia SpecFloat.
From Verif Require Import PyBase PyNum Lexer LexSpec LexProofs LexProofs2 Values Ast Parser Grammar ParseProofs.
Import ListNotations.
Open Scope Z_scope.

Lemma ptree_ind' (P : ptree -> Prop) :
  (forall c t ks, Forall P ks -> P (PT c t ks)) -> forall p, P p.
Proof.
  intros H. fix IH 1. intros [c t ks]. apply H.
  induction ks as [|k ks IHk]; constructor; auto.
Qed.

Lemma ast_ind' (P : ast -> Prop) :
  (forall c t i r ks, Forall P ks -> P (Node c t i r ks)) -> forall p, P p.
Proof.
  intros H. fix IH 1. intros [c t i r ks]. apply H.
  induction ks as [|k ks IHk]; constructor; auto.
Qed.

(** Ids of a tree in post-order. *)
Fixpoint postorder (a : ast) : list Z :=
  let 'Node _ _ i _ k := a in flat_map postorder k ++ [i].

(** [z], [z+1], ..., [k] numbers. *)
Fixpoint zseq (z : Z) (k : nat) : list Z :=
  match k with O => [] | S k' => z :: zseq (z + 1) k' end.

Lemma zseq_app z a b : zseq z (a + b) = zseq z a ++ zseq (z + Z.of_nat a) b.
Proof.
  revert z; induction a as [|a IH]; intros z; cbn [zseq Nat.add app].
  - now rewrite Z.add_0_r.
  - rewrite IH. do 3 f_equal. lia.
Qed.

Lemma zseq_in z k x : In x (zseq z k) <-> z <= x < z + Z.of_nat k.
Proof.
  revert z; induction k as [|k IH]; intros z; cbn [zseq].
  - cbn. lia.
  - cbn [In]. rewrite IH. lia.
Qed.

Lemma zseq_nodup z k : NoDup (zseq z k).
Proof.
  revert z; induction k as [|k IH]; intros z; cbn [zseq]; constructor; auto.
  rewrite zseq_in. lia.
Qed.

Section WithUnicode.
Variable U : unicode.

Lemma build_ids p : forall n a n', build U p n = Ok (a, n') ->
  n' = n + Z.of_nat (num_nodes a) /\ postorder a = zseq (n + 1) (num_nodes a) /\ erase a = p.
Proof.
  induction p as [c t ks IH] using ptree_ind'. intros n a n' H.
  rewrite build_unfold in H. apply bind_ok in H as ([kl n1] & Hk & H).
  apply bind_ok in H as (rv & _ & [= <- <-]).
  assert (G : n1 = n + Z.of_nat (fold_right (fun m a => num_nodes m + a)%nat 0%nat kl) /\
              flat_map postorder kl = zseq (n + 1) (fold_right (fun m a => num_nodes m + a)%nat 0%nat kl) /\
              map erase kl = ks).
  { revert n kl n1 Hk. induction IH as [|k ks Hp IHf IHk]; intros n kl n1 Hk.
    - cbn in Hk. injection Hk as <- <-. cbn. repeat split. lia.
    - cbn [Grammar.build_list] in Hk. apply bind_ok in Hk as ([a0 m] & Ha & Hk).
      apply bind_ok in Hk as ([b m2] & Hb & [= <- <-]).
      apply Hp in Ha as (-> & Hpo & He). apply IHk in Hb as (-> & Hpo2 & He2).
      cbn [fold_right flat_map map]. rewrite He, He2, Hpo, Hpo2. repeat split; [lia|].
      rewrite zseq_app. do 2 f_equal. lia. }
  destruct G as (-> & Hpo & He). cbn [num_nodes postorder erase]. rewrite He, Hpo.
  repeat split; [lia|].
  set (k := fold_right _ _ _). replace (S k) with (k + 1)%nat by lia.
  rewrite zseq_app. cbn. do 2 f_equal. lia.
Qed.

(** ** Unambiguity *)

(** BOOL tokens whose value is not a str cannot be built (AttributeError), so
    token values are first encoded injectively as strings. *)
Definition zenc (z : Z) : N := match z with Z0 => 0 | Zpos p => 2 * Npos p | Zneg p => 2 * Npos p + 1 end.
Lemma zenc_inj a b : zenc a = zenc b -> a = b.
Proof. destruct a, b; cbn [zenc]; intros; try lia; f_equal; lia. Qed.

Definition fenc (f : spec_float) : list N :=
  match f with
  | S754_zero s => [0; N.b2n s]
  | S754_infinity s => [1; N.b2n s]
  | S754_nan => [2]
  | S754_finite s m e => [3; N.b2n s; Npos m; zenc e]
  end%N.
Lemma fenc_inj a b : fenc a = fenc b -> a = b.
Proof.
  destruct a as [[]|[]| |[] m e], b as [[]|[]| |[] m' e']; cbn; intros [=]; auto; f_equal; auto using zenc_inj.
Qed.

Definition venc (v : tokval) : str :=
  match v with
  | TNone => [0%N] | TStr s => 1%N :: s | TInt z => [2%N; zenc z] | TFloat f => 3%N :: fenc f
  end.
Lemma venc_inj a b : venc a = venc b -> a = b.
Proof.
  destruct a, b; cbn; intros [=]; auto; f_equal; auto using zenc_inj, fenc_inj.
Qed.

Definition tm (t : token) : token :=
  if ttype_eqb (t_type t) BOOL then Tok BOOL (t_pos t) (TStr (venc (t_val t))) else t.

Lemma tm_type t : t_type (tm t) = t_type t.
Proof. unfold tm. destruct (ttype_eqb (t_type t) BOOL) eqn:E; auto. apply ttype_eqb_eq in E. cbn. auto. Qed.

Lemma tm_word w t : is_word BOOL_OP w t -> is_word BOOL_OP w (tm t).
Proof.
  intros [H1 H2]. unfold tm. rewrite H1. cbn. split; auto.
Qed.

Lemma tm_inj a b : tm a = tm b -> a = b.
Proof.
  intros H. pose proof (f_equal t_type H) as Ht. rewrite !tm_type in Ht.
  unfold tm in H. rewrite <- Ht in H. destruct (ttype_eqb (t_type a) BOOL); auto.
  injection H as Hp Hv. apply venc_inj in Hv. destruct a, b; cbn in *; congruence.
Qed.

Definition cmap (c : nclass) : nclass :=
  match c with CSet (Some t) => CSet (Some (tm t)) | c => c end.
Lemma cmap_inj a b : cmap a = cmap b -> a = b.
Proof. destruct a as [| | | | | | | | |[t|]| | | | | | |], b as [| | | | | | | | |[t'|]| | | | | | |];
  cbn; intros [=]; auto. now apply tm_inj in H0 as ->. Qed.

Fixpoint pmap (p : ptree) : ptree := let 'PT c t ks := p in PT (cmap c) (tm t) (map pmap ks).

Lemma pmap_inj p : forall q, pmap p = pmap q -> p = q.
Proof.
  induction p as [c t ks IH] using ptree_ind'. intros [c' t' ks'] [= Hc Ht Hk].
  apply cmap_inj in Hc as ->. apply tm_inj in Ht as ->. f_equal.
  revert ks' Hk. induction IH as [|k ks Hp IH IHk]; intros [|k' ks']; cbn; try discriminate; auto.
  intros [= H1 H2]. f_equal; auto.
Qed.

Ltac tmt := rewrite ?tm_type; auto.

Lemma g_att_map u p : g_att u p -> g_att (map tm u) (pmap p).
Proof. destruct 1; cbn; constructor; tmt. Qed.
Lemma g_atomic_map u p : g_atomic u p -> g_atomic (map tm u) (pmap p).
Proof. destruct 1; cbn; constructor; tmt. Qed.
Lemma g_setval_map u l : g_setval u l -> g_setval (map tm u) (map pmap l).
Proof.
  induction 1; cbn.
  - constructor. now apply g_atomic_map.
  - rewrite map_app. cbn. constructor; tmt. now apply g_atomic_map.
Qed.
Lemma g_var_map u p : g_var u p -> g_var (map tm u) (pmap p).
Proof.
  destruct 1 as [u p H|u p H|u p H].
  - apply gv_atomic. now apply g_atomic_map.
  - apply gv_set. destruct H; cbn.
    + constructor; tmt.
    + rewrite map_app. cbn. constructor; tmt. now apply g_setval_map.
  - apply gv_att. now apply g_att_map.
Qed.
Lemma g_boolvar_map u p : g_boolvar u p -> g_boolvar (map tm u) (pmap p).
Proof. destruct 1; cbn; constructor; tmt. now apply g_att_map. Qed.

Lemma g_map :
  (forall u p, g_exp u p -> g_exp (map tm u) (pmap p)) /\
  (forall u p, g_term u p -> g_term (map tm u) (pmap p)) /\
  (forall u p, g_policy u p -> g_policy (map tm u) (pmap p)).
Proof.
  apply g_mind; intros; cbn [map pmap]; rewrite ?map_app; cbn [map].
  - apply ge_op; tmt; now apply g_var_map.
  - apply ge_bool. now apply g_boolvar_map.
  - apply ge_not_bool; tmt. now apply g_boolvar_map.
  - apply ge_paren; tmt.
  - apply ge_not_paren; tmt.
  - now apply gt_exp.
  - apply gt_and; auto. now apply tm_word.
  - now apply gp_term.
  - apply gp_or; auto. now apply tm_word.
Qed.

(** A tree whose BOOL tokens have str values can be built. *)
Definition bool_ok (t : token) : Prop := t_type t = BOOL -> exists s, t_val t = TStr s.

Fixpoint buildable (p : ptree) : Prop :=
  let 'PT c t ks := p in (c = CBoolVal -> exists s, t_val t = TStr s) /\
  (fix all l := match l with [] => True | k :: r => buildable k /\ all r end) ks.

Lemma buildable_unfold c t ks :
  buildable (PT c t ks) <-> (c = CBoolVal -> exists s, t_val t = TStr s) /\ Forall buildable ks.
Proof.
  cbn. assert (E : (fix all l := match l with [] => True | k :: r => buildable k /\ all r end) ks <-> Forall buildable ks).
  { induction ks as [|k ks IH]; split; auto.
    - intros [H1 H2]. constructor; auto. now apply IH.
    - intros H. inversion H; subst. split; auto. now apply IH. }
  now rewrite E.
Qed.

Lemma build_ok p : buildable p -> forall n, exists a n', build U p n = Ok (a, n').
Proof.
  induction p as [c t ks IH] using ptree_ind'. rewrite buildable_unfold. intros [Hc Hk] n.
  rewrite build_unfold.
  assert (G : exists kl n1, build_list U ks n = Ok (kl, n1)).
  { revert n. induction IH as [|k ks Hp IH IHk]; intros n; [cbn; eauto|].
    inversion Hk; subst. destruct (Hp H1 n) as (a & n1 & E). destruct (IHk H2 n1) as (b & n2 & E2).
    cbn [Grammar.build_list]. rewrite E. cbn [bind]. rewrite E2. cbn. eauto. }
  destruct G as (kl & n1 & ->). cbn [bind].
  destruct (init_result U c t) as [rv|] eqn:E; cbn; eauto.
  exfalso. destruct c; cbn in E; try discriminate. destruct (Hc eq_refl) as (s & Hs).
  rewrite Hs in E. discriminate.
Qed.

Lemma g_att_buildable u p : g_att u p -> buildable p.
Proof. destruct 1; cbn; repeat split; discriminate. Qed.
Lemma g_atomic_buildable u p : g_atomic u p -> buildable p.
Proof. destruct 1; cbn; repeat split; discriminate. Qed.
Lemma g_setval_buildable u p : g_setval u p -> Forall buildable p.
Proof. induction 1; constructor; auto; eapply g_atomic_buildable; eauto. Qed.
Lemma g_var_buildable u p : g_var u p -> buildable p.
Proof.
  destruct 1 as [u p H|u p H|u p H]; [now apply g_atomic_buildable in H| |now apply g_att_buildable in H].
  destruct H; apply buildable_unfold; split; try discriminate; auto.
  eapply g_setval_buildable; eauto.
Qed.
Lemma g_boolvar_buildable u p : g_boolvar u p -> Forall bool_ok u -> buildable p.
Proof.
  destruct 1 as [t E|u p H]; intros Hf; [|now apply g_att_buildable in H].
  inversion Hf; subst. cbn. split; auto.
Qed.

Lemma g_buildable :
  (forall u p, g_exp u p -> Forall bool_ok u -> buildable p) /\
  (forall u p, g_term u p -> Forall bool_ok u -> buildable p) /\
  (forall u p, g_policy u p -> Forall bool_ok u -> buildable p).
Proof.
  apply g_mind; intros; auto;
  repeat match goal with
  | H : Forall _ (_ ++ _) |- _ => apply Forall_app in H as [? ?]
  | H : Forall _ (_ :: _) |- _ => inversion H; subst; clear H
  end; auto;
  try (apply buildable_unfold; split; [discriminate|]);
  repeat constructor; auto;
  try (eapply g_var_buildable; eassumption); try (eapply g_boolvar_buildable; eassumption).
Qed.

Lemma bool_ok_tm u : Forall bool_ok (map tm u).
Proof.
  apply Forall_map, Forall_forall. intros t _. unfold bool_ok. rewrite tm_type. intros E.
  unfold tm. rewrite E. cbn. eauto.
Qed.

Theorem policy_unambiguous u p q : g_policy u p -> g_policy u q -> p = q.
Proof.
  intros Hp Hq. apply pmap_inj.
  apply g_map in Hp, Hq.
  set (w := map tm u) in *.
  assert (D : forall r, g_policy w r -> derives (Tok START 0 TNone :: w ++ [Tok END 0 TNone]) r).
  { intros r Hr. exists (Tok START 0 TNone), w, (Tok END 0 TNone), []. auto. }
  pose proof (parse_derives U _ _ 0 (D _ Hp)) as E1.
  pose proof (parse_derives U _ _ 0 (D _ Hq)) as E2.
  apply g_buildable in Hp; [|apply bool_ok_tm].
  destruct (build_ok _ Hp 0) as (a & n' & Ea).
  rewrite Ea in E1. rewrite E1 in E2. symmetry in E2.
  apply build_ids in Ea as (_ & _ & <-). apply build_ids in E2 as (_ & _ & <-). reflexivity.
Qed.

(** The token list fixes the tree even when trailing tokens are ignored. *)
Lemma g_no_end :
  (forall u p, g_exp u p -> Forall (fun t => t_type t <> END) u) /\
  (forall u p, g_term u p -> Forall (fun t => t_type t <> END) u) /\
  (forall u p, g_policy u p -> Forall (fun t => t_type t <> END) u).
Proof.
  assert (A : forall u p, g_att u p -> Forall (fun t => t_type t <> END) u).
  { destruct 1 as [t E|t E|t E|t E|t E]; repeat constructor; rewrite E; discriminate. }
  assert (B : forall u p, g_atomic u p -> Forall (fun t => t_type t <> END) u).
  { destruct 1 as [t E|t E|t E|t E]; repeat constructor; rewrite E; discriminate. }
  assert (S : forall u p, g_setval u p -> Forall (fun t => t_type t <> END) u).
  { induction 1; eauto. apply Forall_app; split; eauto. constructor; auto. rewrite H0. discriminate. }
  assert (V : forall u p, g_var u p -> Forall (fun t => t_type t <> END) u).
  { destruct 1 as [u p H|u p H|u p H]; eauto. destruct H as [lb rb El Er|lb u l rb El H Er].
    - repeat constructor; [rewrite El|rewrite Er]; discriminate.
    - constructor; [rewrite El; discriminate|]. apply Forall_app; split; eauto.
      repeat constructor. rewrite Er. discriminate. }
  assert (BV : forall u p, g_boolvar u p -> Forall (fun t => t_type t <> END) u).
  { destruct 1 as [t E|u p H]; eauto. repeat constructor. rewrite E. discriminate. }
  apply g_mind; intros; eauto;
  repeat (apply Forall_app; split; eauto); repeat constructor; eauto;
  repeat (apply Forall_app; split; eauto); repeat constructor; eauto;
  unfold is_word in *; intuition congruence.
Qed.

Lemma split_first {A} (P : A -> Prop) (u v : list A) a b r s :
  u ++ a :: r = v ++ b :: s -> Forall (fun x => ~ P x) u -> Forall (fun x => ~ P x) v ->
  P a -> P b -> u = v /\ a = b /\ r = s.
Proof.
  revert v; induction u as [|x u IH]; intros [|y v]; cbn; intros E Hu Hv Ha Hb.
  - injection E as -> ->. auto.
  - injection E as -> ->. inversion Hv; contradiction.
  - injection E as -> <-. inversion Hu; contradiction.
  - injection E as -> E. inversion Hu; inversion Hv; subst.
    destruct (IH v E) as (-> & -> & ->); auto.
Qed.

Theorem derives_unambiguous ts p q : derives ts p -> derives ts q -> p = q.
Proof.
  intros (s & u & e & tr & -> & Hs & Hu & He) (s' & u' & e' & tr' & E & Hs' & Hu' & He').
  injection E as -> E.
  destruct (split_first (fun t => t_type t = END) _ _ _ _ _ _ E) as (-> & _ & _); auto;
  try (eapply g_no_end; eassumption).
  eapply policy_unambiguous; eauto.
Qed.

(** ** Exceptions *)

(** A list as the lexer produces it: END is the last token. *)
Definition ended (ts : list token) : Prop :=
  exists body e, ts = body ++ [e] /\ t_type e = END /\ Forall (fun t => t_type t <> END) body.

Lemma ended_drop u ts : Forall (fun t => t_type t <> END) u -> ended (u ++ ts) -> ended ts.
Proof.
  intros Hu (body & e & E & He & Hb). revert body E Hb.
  induction Hu as [|t u Ht Hu IH]; intros body E Hb; cbn in E.
  - exists body, e. auto.
  - destruct body as [|b body]; cbn in E.
    + injection E as -> E. contradiction.
    + injection E as -> E. inversion Hb; subst. eauto.
Qed.

Lemma ended_cons ts : ended ts -> exists t r, ts = t :: r.
Proof. intros (body & e & -> & _). destruct body; cbn; eauto. Qed.

Lemma ended_tl t r : ended (t :: r) -> t_type t <> END -> ended r.
Proof. intros H Ht. apply (ended_drop [t]) in H; auto. Qed.

(** ParserError at a token of the list, or IndexError. *)
Definition perr (ts : list token) (e : exc) : Prop :=
  (exists t, In t ts /\ e = EParser (t_pos t)) \/ e = EIndex.

Lemma perr_app u ts e : perr ts e -> perr (u ++ ts) e.
Proof. intros [(t & Ht & ->)| ->]; [left|now right]. exists t. rewrite in_app_iff. auto. Qed.
Lemma perr_cons t ts e : perr ts e -> perr (t :: ts) e.
Proof. apply (perr_app [t]). Qed.
Lemma perr_here t ts : perr (t :: ts) (EParser (t_pos t)).
Proof. left. exists t. cbn. auto. Qed.

Lemma eat_err ty ts e : ended ts -> eat ty ts = Err e -> perr ts e.
Proof.
  intros H. destruct (ended_cons _ H) as (t & r & ->). unfold eat. cbn.
  destruct (ttype_eqb _ _); [discriminate|]. intros [= <-]. apply perr_here.
Qed.

Lemma atomic_rule_err ts n e : ended ts -> atomic_rule U ts n = Err e -> perr ts e.
Proof.
  intros H. destruct (ended_cons _ H) as (t & r & ->). unfold atomic_rule. cbn [cur bind].
  destruct (t_type t); cbn; try discriminate; intros [= <-]; apply perr_here.
Qed.
Lemma att_name_rule_err ts n e : ended ts -> att_name_rule U ts n = Err e -> perr ts e.
Proof.
  intros H. destruct (ended_cons _ H) as (t & r & ->). unfold att_name_rule. cbn [cur bind].
  destruct (t_type t); cbn; try discriminate; intros [= <-]; apply perr_here.
Qed.
Lemma bool_var_rule_err ts n e : ended ts -> Forall bool_ok ts -> bool_var_rule U ts n = Err e -> perr ts e.
Proof.
  intros H Hb. destruct (ended_cons _ H) as (t & r & ->). unfold bool_var_rule. cbn [cur bind].
  destruct (ttype_eqb (t_type t) BOOL) eqn:E; [|now apply att_name_rule_err].
  apply ttype_eqb_eq in E. inversion Hb; subst. destruct (H2 E) as (s & Hs).
  unfold mk_node, init_result. rewrite Hs. cbn. discriminate.
Qed.

Lemma g_var_no_end u p : g_var u p -> Forall (fun t => t_type t <> END) u.
Proof.
  intros H. pose proof (ge_op u p (Tok OP 0 TNone) u p H eq_refl H) as G.
  apply g_no_end in G. now apply Forall_app in G as [G _].
Qed.
Lemma g_atomic_no_end u p : g_atomic u p -> Forall (fun t => t_type t <> END) u.
Proof. intros H. apply g_var_no_end with p. now constructor. Qed.

Lemma set_loop_err fuel ts n e :
  ended ts -> set_loop U fuel ts n = Err e -> perr ts e \/ e = EFuel.
Proof.
  revert ts n; induction fuel as [|fuel IH]; intros ts n Hts; cbn [set_loop].
  { intros [= <-]. auto. }
  destruct (ended_cons _ Hts) as (t & r & ->). cbn [cur bind].
  destruct (ttype_eqb (t_type t) RSET); [discriminate|]. intros H.
  apply bind_err in H as [H|([c ts1] & H1 & H)]; [left; now apply eat_err in H|].
  apply eat_ok in H1 as [[= <- <-] Hc].
  assert (Hr : ended r) by (apply ended_tl in Hts; auto; rewrite Hc; discriminate).
  apply bind_err in H as [H|([[nd ts2] n1] & H2 & H)].
  { left. apply perr_cons. now apply atomic_rule_err in H. }
  apply atomic_rule_ok in H2 as (u & p & -> & Hu & _).
  apply bind_err in H as [H|([[nds ts3] n2] & H3 & H)]; [|discriminate].
  apply IH in H as [H|H]; auto.
  - left. now apply perr_cons, perr_app.
  - apply ended_drop in Hr; auto. eapply g_atomic_no_end; eauto.
Qed.

Lemma set_rule_err ts n e : ended ts -> set_rule U ts n = Err e -> perr ts e.
Proof.
  unfold set_rule. intros Hts H.
  assert (Hnf : e <> EFuel) by (intros ->; now apply set_rule_fuel in H).
  apply bind_err in H as [H|([lb ts1] & H1 & H)]; [now apply eat_err in H|].
  apply eat_ok in H1 as [-> Hl].
  assert (Hr : ended ts1) by (apply ended_tl in Hts; auto; rewrite Hl; discriminate).
  destruct (ended_cons _ Hr) as (t & r & ->). cbn [cur bind] in H.
  apply perr_cons.
  apply bind_err in H as [H|([[nds ts2] n1] & H2 & H)].
  - destruct (ttype_eqb (t_type t) RSET); [discriminate|].
    apply bind_err in H as [H|([[nd ts3] n2] & H2 & H)]; [now apply atomic_rule_err in H|].
    apply atomic_rule_ok in H2 as (u & p & E & Hu & _). rewrite E in Hr |- *.
    apply bind_err in H as [H|([[nds ts4] n3] & H3 & H)]; [|discriminate].
    apply set_loop_err in H as [H|H]; [now apply perr_app|contradiction|].
    apply ended_drop in Hr; auto. eapply g_atomic_no_end; eauto.
  - assert (G : exists u, t :: r = u ++ ts2 /\ Forall (fun t => t_type t <> END) u).
    { destruct (ttype_eqb (t_type t) RSET).
      - injection H2 as <- <- <-. exists []. auto.
      - apply bind_ok in H2 as ([[nd ts3] n2] & Ha & H2).
        apply bind_ok in H2 as ([[nds1 ts4] n3] & Hs & [= <- <- <-]).
        apply atomic_rule_ok in Ha as (u & p & E & Hu & _).
        apply set_loop_ok in Hs as (v & ps & -> & Ht & _). rewrite E.
        exists (u ++ v). rewrite <- app_assoc. split; auto.
        assert (Hsv : g_setval (u ++ v) (p :: ps)).
        { apply setval_tail. exists u, v, p, ps. auto. }
        assert (Hset : g_set (Tok LSET 0 TNone :: (u ++ v) ++ [Tok RSET 0 TNone])
                        (PT (CSet (Some (Tok RSET 0 TNone))) (Tok LSET 0 TNone) (p :: ps)))
          by now apply gs_some.
        apply gv_set, g_var_no_end in Hset. inversion Hset as [|? ? _ Hx]; subst.
        now apply Forall_app in Hx as [? _]. }
    destruct G as (u & E & Hu). rewrite E in Hr |- *. apply perr_app.
    apply ended_drop in Hr; auto.
    apply bind_err in H as [H|([rb ts3] & H3 & H)]; [now apply eat_err in H|].
    apply bind_err in H as [H|([nd n2] & H4 & H)]; discriminate.
Qed.

Lemma var_rule_err ts n e : ended ts -> var_rule U ts n = Err e -> perr ts e.
Proof.
  intros H. destruct (ended_cons _ H) as (t & r & ->). unfold var_rule, const_rule. cbn [cur bind].
  destruct (is_att t); [now apply att_name_rule_err|].
  destruct (is_const t).
  - destruct (is_atomic t); [now apply atomic_rule_err|now apply set_rule_err].
  - intros [= <-]. apply perr_here.
Qed.

Lemma g_drop (G : list token -> ptree -> Prop) u p ts :
  (forall u p, G u p -> Forall (fun t => t_type t <> END) u) ->
  G u p -> ended (u ++ ts) -> ended ts.
Proof. intros H Hg. apply ended_drop. eapply H; eauto. Qed.

Lemma rules_err fuel :
  (forall ts n e, ended ts -> Forall bool_ok ts -> exp_rule U fuel ts n = Err e -> perr ts e \/ e = EFuel) /\
  (forall a ts n e, ended ts -> Forall bool_ok ts -> term_loop U fuel a ts n = Err e -> perr ts e \/ e = EFuel) /\
  (forall ts n e, ended ts -> Forall bool_ok ts -> term_rule U fuel ts n = Err e -> perr ts e \/ e = EFuel) /\
  (forall a ts n e, ended ts -> Forall bool_ok ts -> policy_loop U fuel a ts n = Err e -> perr ts e \/ e = EFuel) /\
  (forall ts n e, ended ts -> Forall bool_ok ts -> policy_rule U fuel ts n = Err e -> perr ts e \/ e = EFuel).
Proof.
  destruct g_no_end as (Ne & Nt & Np).
  induction fuel as [|fuel (IHe & IHtl & IHt & IHpl & IHp)].
  { repeat split; intros; cbn in *; right; congruence. }
  assert (Paren : forall ts n e, ended ts -> Forall bool_ok ts ->
    ('(s, ts2, n1) <- policy_rule U fuel ts n ;;
     '(_, ts3) <- eat RPARN ts2 ;; Ok (s, ts3, n1)) = Err e -> perr ts e \/ e = EFuel).
  { intros ts n e Hts Hb H. apply bind_err in H as [H|([[s ts2] n1] & H1 & H)]; [now apply IHp in H|].
    apply rules_sound in H1 as (u & p & -> & Hg & _).
    apply bind_err in H as [H|([s0 ts3] & H2 & H)]; [|discriminate].
    left. apply perr_app. apply eat_err in H; auto. eapply (g_drop g_policy); eauto. }
  assert (MkBool : forall t l r n e, mk_node U CBoolOp t [l; r] n = Err e -> False) by discriminate.
  repeat split.
  - intros ts n e Hts Hb. destruct (ended_cons _ Hts) as (t & r & ->). cbn [exp_rule cur bind tl].
    destruct (ttype_eqb (t_type t) NOT_OP) eqn:En.
    + apply ttype_eqb_eq in En.
      assert (Hr : ended r) by (apply ended_tl in Hts; auto; rewrite En; discriminate).
      inversion Hb as [|? ? _ Hb']; subst.
      cbv zeta. destruct (ended_cons _ Hr) as (t1 & r1 & ->). cbn [cur bind tl]. intros H.
      apply bind_err in H as [H|([[sub ts2] n1] & H1 & H)].
      * destruct (ttype_eqb (t_type t1) LPARN) eqn:El.
        { apply ttype_eqb_eq in El. inversion Hb' as [|? ? _ Hb2]; subst.
          apply Paren in H; auto.
          - destruct H as [H|H]; auto. left. now apply perr_cons, perr_cons.
          - apply ended_tl in Hr; auto. rewrite El. discriminate. }
        { left. apply perr_cons. now apply bool_var_rule_err in H. }
      * discriminate.
    + destruct (ttype_eqb (t_type t) LPARN) eqn:El.
      { apply ttype_eqb_eq in El. inversion Hb as [|? ? _ Hb2]; subst. intros H.
        apply Paren in H; auto.
        - destruct H as [H|H]; auto. left. now apply perr_cons.
        - apply ended_tl in Hts; auto. rewrite El. discriminate. }
      intros H. apply bind_err in H as [H|(g & H1 & H)].
      { left. unfold starts_op in H. cbn [cur bind] in H.
        destruct (ttype_eqb (t_type t) LSET); [discriminate|].
        destruct r; cbn in H; [injection H as <-; now right|discriminate]. }
      destruct g.
      * left. apply bind_err in H as [H|([[l ts1] n1] & H2 & H)]; [now apply var_rule_err in H|].
        apply var_rule_ok in H2 as (u & p & E & Hu & _). rewrite E in Hts |- *. apply perr_app.
        assert (Hts1 : ended ts1) by (apply ended_drop in Hts; auto; eapply g_var_no_end; eauto).
        apply bind_err in H as [H|([o ts2] & H3 & H)]; [now apply eat_err in H|].
        apply eat_ok in H3 as [-> Ho]. apply perr_cons.
        assert (Hts2 : ended ts2) by (apply ended_tl in Hts1; auto; rewrite Ho; discriminate).
        apply bind_err in H as [H|([[r0 ts3] n2] & H4 & H)]; [now apply var_rule_err in H|].
        discriminate.
      * destruct (_ || _).
        { left. now apply bool_var_rule_err in H. }
        { injection H as <-. left. apply perr_here. }
  - intros a ts n e Hts Hb. destruct (ended_cons _ Hts) as (t & r & ->). cbn [term_loop cur bind tl].
    destruct (is_bool_op "AND" t) eqn:Ea; [|discriminate]. apply is_bool_op_word in Ea as [Et _]. intros H.
    assert (Hr : ended r) by (apply ended_tl in Hts; auto; rewrite Et; discriminate).
    inversion Hb as [|? ? _ Hb']; subst.
    assert (W : perr r e \/ e = EFuel -> perr (t :: r) e \/ e = EFuel).
    { intros [?|?]; auto. left. now apply perr_cons. }
    apply bind_err in H as [H|([[e1 ts1] n1] & H1 & H)]; [apply IHe in H; auto|].
    apply rules_sound in H1 as (u & p & -> & Hg & _).
    apply bind_err in H as [H|([nd n2] & H2 & H)]; [now apply MkBool in H|].
    apply Forall_app in Hb' as [_ Hb'].
    apply IHtl in H; auto.
    + apply W. destruct H; auto. left. now apply perr_app.
    + eapply (g_drop g_exp); eauto.
  - intros ts n e Hts Hb. cbn [term_rule]. intros H.
    apply bind_err in H as [H|([[e1 ts1] n1] & H1 & H)]; [apply IHe in H; auto|].
    apply rules_sound in H1 as (u & p & -> & Hg & _).
    apply Forall_app in Hb as [_ Hb].
    apply IHtl in H; auto.
    + destruct H; auto. left. now apply perr_app.
    + eapply (g_drop g_exp); eauto.
  - intros a ts n e Hts Hb. destruct (ended_cons _ Hts) as (t & r & ->). cbn [policy_loop cur bind tl].
    destruct (is_bool_op "OR" t) eqn:Ea; [|discriminate]. apply is_bool_op_word in Ea as [Et _]. intros H.
    assert (Hr : ended r) by (apply ended_tl in Hts; auto; rewrite Et; discriminate).
    inversion Hb as [|? ? _ Hb']; subst.
    assert (W : perr r e \/ e = EFuel -> perr (t :: r) e \/ e = EFuel).
    { intros [?|?]; auto. left. now apply perr_cons. }
    apply bind_err in H as [H|([[e1 ts1] n1] & H1 & H)]; [apply IHt in H; auto|].
    apply rules_sound in H1 as (u & p & -> & Hg & _).
    apply bind_err in H as [H|([nd n2] & H2 & H)]; [now apply MkBool in H|].
    apply Forall_app in Hb' as [_ Hb'].
    apply IHpl in H; auto.
    + apply W. destruct H; auto. left. now apply perr_app.
    + eapply (g_drop g_term); eauto.
  - intros ts n e Hts Hb. cbn [policy_rule]. intros H.
    apply bind_err in H as [H|([[e1 ts1] n1] & H1 & H)]; [apply IHt in H; auto|].
    apply rules_sound in H1 as (u & p & -> & Hg & _).
    apply Forall_app in Hb as [_ Hb].
    apply IHpl in H; auto.
    + destruct H; auto. left. now apply perr_app.
    + eapply (g_drop g_term); eauto.
Qed.

Theorem parse_err ts last e :
  ended ts -> Forall bool_ok ts -> parse U ts last = Err e -> perr ts e.
Proof.
  intros Hts Hb. unfold parse. destruct (ended_cons _ Hts) as (s & r & ->). intros H.
  apply bind_err in H as [H|([s' ts1] & H1 & H)]; [now apply eat_err in H|].
  apply eat_ok in H1 as [[= <- <-] Hs]. apply perr_cons.
  assert (Hr : ended r) by (apply ended_tl in Hts; auto; rewrite Hs; discriminate).
  inversion Hb as [|? ? _ Hb']; subst.
  apply bind_err in H as [H|([[nd ts2] n1] & H1 & H)].
  - assert (e <> EFuel).
    { intros ->. apply rules_fuel in H; auto. unfold parse_fuel. cbn [List.length]. lia. }
    apply rules_err in H as [H|H]; auto. contradiction.
  - apply rules_sound in H1 as (u & p & -> & Hg & _). apply perr_app.
    apply bind_err in H as [H|([e1 ts3] & H2 & H)]; [|discriminate].
    apply eat_err in H; auto. eapply (g_drop g_policy); eauto. apply g_no_end.
Qed.

(** *** IndexError exactly at the end, where an expression had to start *)

Definition starter (t : token) : Prop := t_type t = NOT_OP \/ t_type t = LPARN \/ t_type t = LSET.

Lemma simple_index :
  (forall ty ts, eat ty ts <> Err EIndex) /\
  (forall ts n, atomic_rule U ts n <> Err EIndex) /\ (forall ts n, att_name_rule U ts n <> Err EIndex) /\
  (forall ts n, bool_var_rule U ts n <> Err EIndex) /\ (forall ts n, var_rule U ts n <> Err EIndex).
Proof.
  assert (E : forall ty ts, eat ty ts <> Err EIndex).
  { intros ty ts. unfold eat. destruct ts; cbn; [discriminate|]. destruct (ttype_eqb _ _); discriminate. }
  assert (A : forall ts n, atomic_rule U ts n <> Err EIndex).
  { intros ts n. unfold atomic_rule. destruct ts as [|t ts]; [discriminate|]. cbn [cur bind].
    destruct (t_type t); cbn; discriminate. }
  assert (B : forall ts n, att_name_rule U ts n <> Err EIndex).
  { intros ts n. unfold att_name_rule. destruct ts as [|t ts]; [discriminate|]. cbn [cur bind].
    destruct (t_type t); cbn; discriminate. }
  assert (M : forall c t k n, mk_node U c t k n <> Err EIndex).
  { intros c t k n H. apply mk_node_err in H. discriminate. }
  assert (S1 : forall f ts n, set_loop U f ts n <> Err EIndex).
  { induction f as [|f IH]; intros ts n; cbn [set_loop]; [discriminate|].
    destruct ts as [|t ts]; [discriminate|]. cbn [cur bind].
    destruct (ttype_eqb (t_type t) RSET); [discriminate|]. intros H.
    apply bind_err in H as [H|([c ts1] & H1 & H)]; [now apply E in H|].
    apply bind_err in H as [H|([[nd ts2] n1] & H2 & H)]; [now apply A in H|].
    apply bind_err in H as [H|([[nds ts3] n2] & H3 & H)]; [now apply IH in H|discriminate]. }
  assert (S2 : forall ts n, set_rule U ts n <> Err EIndex).
  { intros ts n. unfold set_rule. intros H.
    apply bind_err in H as [H|([lb ts1] & H1 & H)]; [now apply E in H|].
    destruct ts1 as [|t ts1]; [discriminate|]. cbn [cur bind] in H.
    apply bind_err in H as [H|([[nds ts2] n1] & H2 & H)].
    - destruct (ttype_eqb (t_type t) RSET); [discriminate|].
      apply bind_err in H as [H|([[nd ts3] n2] & H2 & H)]; [now apply A in H|].
      apply bind_err in H as [H|([[nds ts4] n3] & H3 & H)]; [now apply S1 in H|discriminate].
    - apply bind_err in H as [H|([rb ts3] & H3 & H)]; [now apply E in H|].
      apply bind_err in H as [H|([nd n2] & H4 & H)]; [now apply M in H|discriminate]. }
  repeat split; auto.
  - intros ts n. unfold bool_var_rule. destruct ts as [|t ts]; [discriminate|]. cbn [cur bind].
    destruct (ttype_eqb (t_type t) BOOL); [|apply B].
    intros H. apply bind_err in H as [H|([nd n2] & H4 & H)]; [now apply M in H|discriminate].
  - intros ts n. unfold var_rule, const_rule. destruct ts as [|t ts]; [discriminate|]. cbn [cur bind].
    destruct (is_att t); [apply B|]. destruct (is_const t); [|discriminate].
    destruct (is_atomic t); [apply A|apply S2].
Qed.

Definition pre_last (P : list token -> Prop) (ts : list token) : Prop :=
  exists u t, ts = u ++ [t] /\ P u /\ ~ starter t.

Lemma rules_index fuel :
  (forall ts n, exp_rule U fuel ts n = Err EIndex -> pre_last pre_exp ts) /\
  (forall a ts n, term_loop U fuel a ts n = Err EIndex ->
     forall v l, g_term v l -> pre_last pre_term (v ++ ts)) /\
  (forall ts n, term_rule U fuel ts n = Err EIndex -> pre_last pre_term ts) /\
  (forall a ts n, policy_loop U fuel a ts n = Err EIndex ->
     forall v l, g_policy v l -> pre_last pre_policy (v ++ ts)) /\
  (forall ts n, policy_rule U fuel ts n = Err EIndex -> pre_last pre_policy ts).
Proof.
  destruct simple_index as (Ie & Ia & In_ & Ib & Iv).
  induction fuel as [|fuel (IHe & IHtl & IHt & IHpl & IHp)].
  { repeat split; intros; discriminate. }
  assert (Paren : forall lp ts n, t_type lp = LPARN ->
    ('(s, ts2, n1) <- policy_rule U fuel ts n ;;
     '(_, ts3) <- eat RPARN ts2 ;; Ok (s, ts3, n1)) = Err EIndex -> pre_last pre_policy ts).
  { intros lp ts n Hl H. apply bind_err in H as [H|([[s ts2] n1] & H1 & H)]; [now apply IHp in H|].
    apply bind_err in H as [H|([s0 ts3] & H2 & H)]; [now apply Ie in H|discriminate]. }
  repeat split.
  - intros ts n. destruct ts as [|t ts]; [discriminate|]. cbn [exp_rule cur bind tl].
    destruct (ttype_eqb (t_type t) NOT_OP) eqn:En.
    + apply ttype_eqb_eq in En. cbv zeta. destruct ts as [|t1 ts]; [discriminate|]. cbn [cur bind tl].
      intros H. apply bind_err in H as [H|([[sub ts2] n1] & H1 & H)]; [|discriminate].
      destruct (ttype_eqb (t_type t1) LPARN) eqn:El; [|now apply Ib in H].
      apply ttype_eqb_eq in El. apply (Paren _ _ _ El) in H as (u & x & -> & Hu & Hx).
      exists (t :: t1 :: u), x. repeat split; auto. now apply pe_not_paren.
    + destruct (ttype_eqb (t_type t) LPARN) eqn:El.
      { apply ttype_eqb_eq in El. intros H. apply (Paren _ _ _ El) in H as (u & x & -> & Hu & Hx).
        exists (t :: u), x. repeat split; auto. now apply pe_paren. }
      intros H. apply bind_err in H as [H|(g & H1 & H)].
      { unfold starts_op in H. cbn [cur bind] in H.
        destruct (ttype_eqb (t_type t) LSET) eqn:Es; [discriminate|].
        destruct ts; cbn in H; [|discriminate]. exists [], t. repeat split; [constructor|].
        apply ttype_eqb_neq in En, El, Es. unfold starter. tauto. }
      destruct g.
      * apply bind_err in H as [H|([[l ts1] n1] & H2 & H)]; [now apply Iv in H|].
        apply bind_err in H as [H|([o ts2] & H3 & H)]; [now apply Ie in H|].
        apply bind_err in H as [H|([[r0 ts3] n2] & H4 & H)]; [now apply Iv in H|discriminate].
      * destruct (_ || _); [now apply Ib in H|discriminate].
  - intros a ts n. destruct ts as [|t ts]; [discriminate|]. cbn [term_loop cur bind tl].
    destruct (is_bool_op "AND" t) eqn:Ea; [|discriminate]. apply is_bool_op_word in Ea. intros H v l Hv.
    apply bind_err in H as [H|([[e1 ts1] n1] & H1 & H)].
    { apply IHe in H as (u & x & -> & Hu & Hx). exists (v ++ t :: u), x.
      rewrite <- app_assoc. repeat split; auto. eapply pt_and; eauto. }
    apply rules_sound in H1 as (u & p & -> & Hg & _).
    apply bind_err in H as [H|([nd n2] & H2 & H)]; [discriminate|].
    specialize (IHtl _ _ _ H (v ++ t :: u) (PT CBoolOp t [l; p])).
    rewrite <- app_assoc in IHtl. apply IHtl. now apply gt_and.
  - intros ts n. cbn [term_rule]. intros H.
    apply bind_err in H as [H|([[e1 ts1] n1] & H1 & H)].
    { apply IHe in H as (u & x & -> & Hu & Hx). exists u, x. repeat split; auto. now apply pt_first. }
    apply rules_sound in H1 as (u & p & -> & Hg & _). apply (IHtl _ _ _ H u p). now apply gt_exp.
  - intros a ts n. destruct ts as [|t ts]; [discriminate|]. cbn [policy_loop cur bind tl].
    destruct (is_bool_op "OR" t) eqn:Ea; [|discriminate]. apply is_bool_op_word in Ea. intros H v l Hv.
    apply bind_err in H as [H|([[e1 ts1] n1] & H1 & H)].
    { apply IHt in H as (u & x & -> & Hu & Hx). exists (v ++ t :: u), x.
      rewrite <- app_assoc. repeat split; auto. eapply pp_or; eauto. }
    apply rules_sound in H1 as (u & p & -> & Hg & _).
    apply bind_err in H as [H|([nd n2] & H2 & H)]; [discriminate|].
    specialize (IHpl _ _ _ H (v ++ t :: u) (PT CBoolOp t [l; p])).
    rewrite <- app_assoc in IHpl. apply IHpl. now apply gp_or.
  - intros ts n. cbn [policy_rule]. intros H.
    apply bind_err in H as [H|([[e1 ts1] n1] & H1 & H)].
    { apply IHt in H as (u & x & -> & Hu & Hx). exists u, x. repeat split; auto. now apply pp_first. }
    apply rules_sound in H1 as (u & p & -> & Hg & _). apply (IHpl _ _ _ H u p). now apply gp_term.
Qed.

Lemma pre_index :
  (forall u, pre_exp u -> Forall bool_ok u -> exists f0, forall f t n, (f0 <= f)%nat -> ~ starter t ->
     exp_rule U f (u ++ [t]) n = Err EIndex) /\
  (forall u, pre_term u -> Forall bool_ok u -> exists f0, forall f t n, (f0 <= f)%nat -> ~ starter t ->
     term_rule U f (u ++ [t]) n = Err EIndex) /\
  (forall u, pre_policy u -> Forall bool_ok u -> exists f0, forall f t n, (f0 <= f)%nat -> ~ starter t ->
     policy_rule U f (u ++ [t]) n = Err EIndex).
Proof.
  apply pre_mind.
  - intros _. exists 1%nat. intros f t n Hf Ht. destruct f as [|f]; [lia|]. cbn [app exp_rule cur bind].
    assert (E : ttype_eqb (t_type t) NOT_OP = false /\ ttype_eqb (t_type t) LPARN = false /\
                ttype_eqb (t_type t) LSET = false).
    { unfold starter in Ht. repeat split; apply ttype_eqb_neq; tauto. }
    destruct E as (-> & -> & E). unfold starts_op. cbn. now rewrite E.
  - intros lp u Hl Hu IH Hb. inversion Hb; subst. destruct (IH H2) as (f0 & H). exists (S f0).
    intros f t n Hf Ht. destruct f as [|f]; [lia|]. cbn [app exp_rule cur bind tl].
    rewrite Hl. cbn [ttype_eqb ttype_val]. rewrite H by (auto; lia). reflexivity.
  - intros t0 lp u H0 Hl Hu IH Hb. inversion Hb as [|? ? _ Hb2]; subst. inversion Hb2; subst.
    destruct (IH H3) as (f0 & H). exists (S f0).
    intros f t n Hf Ht. destruct f as [|f]; [lia|]. cbn [app exp_rule cur bind tl].
    rewrite H0. cbn [ttype_eqb ttype_val tl]. cbv zeta. cbn [cur bind]. rewrite Hl.
    cbn [ttype_eqb ttype_val tl]. rewrite H by (auto; lia). reflexivity.
  - intros u Hu IH Hb. destruct (IH Hb) as (f0 & H). exists (S f0). intros f t n Hf Ht.
    destruct f as [|f]; [lia|]. cbn [term_rule]. now rewrite H by (auto; lia).
  - intros v l a u Hv Ha Hu IH Hb. apply Forall_app in Hb as [Hbv Hb]. inversion Hb as [|? ? _ Hbu]; subst.
    destruct (IH Hbu) as (f0 & H).
    destruct (rules_complete U) as (_ & C & _). destruct (C _ _ Hv) as (f1 & d & HC).
    exists (d + S (f0 + f1))%nat. intros f t n Hf Ht.
    replace f with (d + (f - d))%nat by lia. rewrite <- app_assoc. cbn [app].
    rewrite HC; [|lia|cbn; destruct Ha as [-> _]; discriminate].
    apply g_buildable in Hv; auto. destruct (build_ok _ Hv n) as (x & n' & ->). cbn [bind].
    destruct (f - d)%nat as [|k] eqn:E; [lia|]. cbn [term_loop cur bind tl].
    apply is_bool_op_word in Ha. rewrite Ha. now rewrite H by (auto; lia).
  - intros u Hu IH Hb. destruct (IH Hb) as (f0 & H). exists (S f0). intros f t n Hf Ht.
    destruct f as [|f]; [lia|]. cbn [policy_rule]. now rewrite H by (auto; lia).
  - intros v l a u Hv Ha Hu IH Hb. apply Forall_app in Hb as [Hbv Hb]. inversion Hb as [|? ? _ Hbu]; subst.
    destruct (IH Hbu) as (f0 & H).
    destruct (rules_complete U) as (_ & _ & C). destruct (C _ _ Hv) as (f1 & d & HC).
    exists (d + S (f0 + f1))%nat. intros f t n Hf Ht.
    replace f with (d + (f - d))%nat by lia. rewrite <- app_assoc. cbn [app].
    rewrite HC; [|lia|cbn; unfold is_word in *; destruct Ha as [-> ->]; split; [discriminate|intros [_ ?]; discriminate]].
    apply g_buildable in Hv; auto. destruct (build_ok _ Hv n) as (x & n' & ->). cbn [bind].
    destruct (f - d)%nat as [|k] eqn:E; [lia|]. cbn [policy_loop cur bind tl].
    apply is_bool_op_word in Ha. rewrite Ha. now rewrite H by (auto; lia).
Qed.

Theorem parse_index ts last :
  ended ts -> Forall bool_ok ts ->
  (parse U ts last = Err EIndex <->
   exists s u e, ts = s :: u ++ [e] /\ t_type s = START /\ pre_policy u).
Proof.
  intros Hts Hb. split.
  - unfold parse. destruct ts as [|s ts]. { destruct (ended_cons _ Hts) as (? & ? & ?). discriminate. }
    intros H. destruct simple_index as (Ie & _).
    apply bind_err in H as [H|([s' ts1] & H1 & H)]; [now apply Ie in H|].
    apply eat_ok in H1 as [[= <- <-] Hs].
    apply bind_err in H as [H|([[nd ts2] n1] & H1 & H)].
    + apply rules_index in H as (u & t & -> & Hu & _). eauto 10.
    + apply bind_err in H as [H|([e1 ts3] & H2 & H)]; [now apply Ie in H|discriminate].
  - intros (s & u & e & -> & Hs & Hu). unfold parse. rewrite eat_hit by auto. cbn [bind].
    inversion Hb as [|? ? _ Hb']; subst. apply Forall_app in Hb' as [Hbu _].
    destruct pre_index as (_ & _ & P). destruct (P _ Hu Hbu) as (f0 & H).
    rewrite <- (policy_rule_parse U s (u ++ [e]) last (f0 + parse_fuel (s :: u ++ [e]))) by lia.
    rewrite H; [reflexivity|lia|].
    destruct Hts as (body & e' & E & He & _). rewrite app_comm_cons in E.
    apply app_inj_tail in E as [_ ->]. unfold starter. rewrite He. intuition discriminate.
Qed.

End WithUnicode.
