(** * TreeProps: equality and size of policy trees (C75, C76) *)

From Coq Require Import NArith ZArith List Bool String Lia Permutation.
From Coq Require Import QArith Floats.SpecFloat.
From Verif Require Import PyBase PyNum Lexer LexSpec LexProofs LexProofs2 LexProps Values Ast Parser Grammar
  ParseProofs ParseProofs2 Syntax PrintProofs ParseProps AbsProofs Symbols Interp EvalProofs EvalProofs2 Struct
  SymbolProps TypeCheck TypeSpec TypeProofs TypeProps FloatProofs CodecSpec CodecProofs CodecProofs2 AstCodec CodecProps
  EvalSpec EvalProps EndProps.
Import ListNotations.
Open Scope Z_scope.

(** ** Literals are numbers *)

Lemma shr1_nonneg x : 0 <= shr_m x -> 0 <= shr_m (shr_1 x).
Proof. destruct x as [[|[p|p|]|[p|p|]] r s]; cbn; lia. Qed.
Lemma shr_nonneg x e n : 0 <= shr_m x -> 0 <= shr_m (fst (shr x e n)).
Proof.
  intros H. destruct n as [|p|p]; cbn [shr fst]; auto. rewrite iter_pos_nat.
  induction (Pos.to_nat p) as [|k IH]; cbn [Nat.iter]; auto. now apply shr1_nonneg.
Qed.
Lemma round_not_nan p x s m e l : 0 <= m -> binary_round_aux p x s m e l <> S754_nan.
Proof.
  intros Hm. unfold binary_round_aux.
  assert (H1 : 0 <= shr_m (fst (shr_fexp p x m e l))) by (apply shr_nonneg; destruct l as [|[]]; exact Hm).
  destruct (shr_fexp p x m e l) as [r1 e1]. cbn [fst] in H1.
  set (n := round_nearest_even (shr_m r1) (loc_of_shr_record r1)).
  assert (H2 : 0 <= n) by (unfold n, round_nearest_even; destruct (loc_of_shr_record r1) as [|[]]; try destruct (Z.even _); lia).
  assert (H3 : 0 <= shr_m (fst (shr_fexp p x n e1 loc_Exact))) by (apply shr_nonneg; exact H2).
  destruct (shr_fexp p x n e1 loc_Exact) as [r2 e2]. cbn [fst] in H3.
  destruct (shr_m r2); try discriminate; [destruct (_ <=? _); discriminate|lia].
Qed.
Lemma literal_not_nan neg m k : float_of_dec neg m k <> S754_nan.
Proof.
  unfold float_of_dec. destruct m as [|p]; [discriminate|].
  destruct (N.pow 10 k) as [|q] eqn:Eq; [exfalso; apply (N.pow_nonzero 10 k); [discriminate|exact Eq]|].
  cbn [SFdiv]. unfold SFdiv_core_binary.
  match goal with |- context [Z.min ?a ?b] => set (e := Z.min a b) end.
  match goal with |- context [Z.div_eucl ?a ?b] => set (m' := a); pose proof (Z_div_mod m' (Z.pos q) ltac:(reflexivity)) as D;
    assert (Hm : 0 <= m') end.
  { unfold m'. destruct (0 - 0 - e); try lia. apply Z.shiftl_nonneg. lia. }
  destruct (Z.div_eucl m' (Z.pos q)) as [d r]. destruct D as [D Hr]. apply round_not_nan. nia.
Qed.

(** ** C75 *)

(** Two trees look the same: the same shape, and in each place tokens of the same type and
    position whose values are the same text or equal numbers. *)
Definition number_of (v : tokval) : option real :=
  match v with TInt z => real_of (NInt z) | TFloat f => real_of (NFloat f) | _ => None end.
Inductive value_same : tokval -> tokval -> Prop :=
| vs_none : value_same TNone TNone
| vs_str s : value_same (TStr s) (TStr s)
| vs_num v w a b : number_of v = Some a -> number_of w = Some b -> req a b -> value_same v w.
Inductive tree_same : ast -> ast -> Prop :=
| ts_node c t i r ks c' t' i' r' ks' : t_type t = t_type t' -> t_pos t = t_pos t' -> value_same (t_val t) (t_val t') ->
    Forall2 tree_same ks ks' -> tree_same (Node c t i r ks) (Node c' t' i' r' ks').

Lemma num_eqb_real x y : num_eqb x y = true <-> exists a b, real_of x = Some a /\ real_of y = Some b /\ req a b.
Proof.
  unfold num_eqb. pose proof (num_cmp_spec x y) as S. split.
  - destruct (num_cmp x y) as [[]|]; try discriminate. auto.
  - intros (a & b & Ha & Hb & R). destruct (num_cmp_rel x y a b Ha Hb) as (o & -> & O).
    now rewrite (rel_unique o Eq a b O R).
Qed.
Lemma value_same_eqb v w : tokval_eqb v w = true <-> value_same v w.
Proof.
  assert (Z1 : forall x y, (x =? y) = true <-> value_same (TInt x) (TInt y)).
  { intros x y. rewrite Z.eqb_eq. split.
    - intros <-. eapply vs_num; reflexivity.
    - inversion 1 as [| |v' w' a b Ha Hb R]; subst. cbn in Ha, Hb. injection Ha as <-. injection Hb as <-.
      cbn in R. unfold Qeq in R. cbn in R. lia. }
  assert (N : forall v w x y, (match v with TInt z => Some (NInt z) | TFloat f => Some (NFloat f) | _ => None end) = Some x ->
    (match w with TInt z => Some (NInt z) | TFloat f => Some (NFloat f) | _ => None end) = Some y ->
    (num_eqb x y = true <-> value_same v w)).
  { intros v0 w0 x y Hx Hy. rewrite num_eqb_real. split.
    - intros (a & b & Ha & Hb & R). apply (vs_num v0 w0 a b); [| |exact R];
      [destruct v0; try discriminate Hx; injection Hx as <-; exact Ha|destruct w0; try discriminate Hy; injection Hy as <-; exact Hb].
    - inversion 1 as [|s|v' w' a b Ha Hb R]; subst; try discriminate. exists a, b. split; [|split; [|exact R]];
      [destruct v0; try discriminate Hx; injection Hx as <-; exact Ha|destruct w0; try discriminate Hy; injection Hy as <-; exact Hb]. }
  destruct v as [|s|z|f], w as [|s'|z'|f']; cbn [tokval_eqb].
  2-5, 7-10, 13-14: split; [discriminate|inversion 1 as [| |v w a b Ha Hb R]; subst; discriminate].
  - split; auto; constructor.
  - rewrite str_eqb_eq. split; [intros ->; constructor|inversion 1 as [| |v w a b Ha Hb R]; subst; auto; discriminate].
  - apply Z1.
  - now apply N.
  - now apply N.
  - unfold float_eqb. now apply N.
Qed.

(** [a == b] holds exactly for trees that look the same; class, id and result play no role. *)
Theorem C75_equal (a b : ast) : ast_eqb a b = true <-> tree_same a b.
Proof.
  revert b. induction a as [c t i r ks IH] using ast_ind'. intros [c' t' i' r' ks'].
  rewrite ast_eqb_unfold, token_eqb_split, value_same_eqb.
  assert (K : Forall2 (fun a b => ast_eqb a b = true) ks ks' <-> Forall2 tree_same ks ks').
  { clear - IH. revert ks'. induction IH as [|k ks H _ IHk]; intros ks'.
    - split; inversion 1; constructor.
    - split; inversion 1; subst; constructor; try apply H; try apply IHk; auto. }
  rewrite K. split.
  - intros ((T & V & P) & F). constructor; auto. unfold ttype_eqb in T. apply N.eqb_eq in T.
    destruct (t_type t), (t_type t'); try discriminate T; reflexivity.
  - inversion 1; subst. repeat split; auto. rewrite H4. apply ttype_eqb_refl.
Qed.

(** Equality is symmetric and transitive, and reflexive except on trees that hold a NaN. *)
Definition holds_nan (a : ast) : Prop := exists n, In n (subtrees a) /\ t_val (n_tok n) = TFloat S754_nan.
Theorem C75_equivalence :
  (forall a b, ast_eqb a b = ast_eqb b a) /\
  (forall a b c, ast_eqb a b = true -> ast_eqb b c = true -> ast_eqb a c = true) /\
  (forall a, ast_eqb a a = true <-> ~ holds_nan a).
Proof.
  assert (V : forall v w, value_same v w -> value_same w v).
  { destruct 1 as [| |v w a b Ha Hb R]; try constructor. apply req_sym in R. eapply vs_num; eauto. }
  assert (S : forall a b, ast_eqb a b = true -> ast_eqb b a = true).
  { intros a b. rewrite !C75_equal. revert b. induction a as [c t i r ks IH] using ast_ind'. intros b H.
    inversion H as [? ? ? ? ? c' t' i' r' ks' E1 E2 E3 F]; subst. constructor; auto. clear - IH F. revert IH.
    induction F as [|x y l m Hx _ IHF]; intros IH; constructor; inversion IH; subst; auto. }
  split; [|split].
  - intros a b. destruct (ast_eqb a b) eqn:E; [symmetry; auto|]. destruct (ast_eqb b a) eqn:E2; auto.
    apply S in E2. congruence.
  - intros a b c. rewrite !C75_equal. revert b c. induction a as [k t i r ks IH] using ast_ind'. intros b c H1 H2.
    inversion H1 as [? ? ? ? ? c' t' i' r' ks' E1 E2 E3 F]; subst. inversion H2 as [? ? ? ? ? d s j q ls G1 G2 G3 F']; subst.
    constructor; try congruence.
    + destruct E3 as [|s0|v w x y Hx Hy R]; inversion G3 as [| |v' w' x' y' Hx' Hy' R']; subst; try constructor; try discriminate.
      rewrite Hx' in Hy. injection Hy as <-. eapply vs_num; eauto. clear - R R'.
      destruct x, x', y'; cbn in *; try contradiction; auto. now rewrite R.
    + clear - IH F F'. revert ls F' IH. induction F as [|x y l m Hx _ IHF]; intros ls F' IH; inversion F'; subst; constructor;
      inversion IH; subst; eauto.
  - intros a. rewrite C75_equal. induction a as [k t i r ks IH] using ast_ind'. split.
    + intros H (n & Hn & Hv). cbn [subtrees n_kids] in Hn. inversion H as [? ? ? ? ? c' t' i' r' ks' E1 E2 E3 F]; subst.
      destruct Hn as [<-|Hn]; [cbn [n_tok] in Hv; rewrite Hv in E3; inversion E3; discriminate|].
      apply in_flat_map in Hn as (c & Hc & Hn). rewrite Forall_forall in IH. apply (IH c Hc).
      * clear - F Hc. induction ks as [|x l IHl]; inversion F; subst; [contradiction|]. destruct Hc as [<-|Hc]; auto.
      * exists n. auto.
    + intros H. constructor; auto.
      * destruct (t_val t) as [|s|z|f] eqn:E; [constructor|constructor|eapply vs_num; reflexivity|].
        destruct (real_of (NFloat f)) as [x|] eqn:R.
        { eapply vs_num; cbn [number_of]; eauto. destruct x; cbn; auto. reflexivity. }
        exfalso. apply H. exists (Node k t i r ks). split; [now left|]. cbn [n_tok]. rewrite E.
        destruct f; try discriminate. reflexivity.
      * assert (Hk : forall c, In c ks -> ~ holds_nan c).
        { intros c Hc (n & Hn & Hv). apply H. exists n. split; auto. cbn [subtrees n_kids]. right. apply in_flat_map. eauto. }
        clear H. induction IH as [|x l Hx _ IHl]; constructor; [apply Hx; apply Hk; now left|apply IHl; intros; apply Hk; now right].
Qed.

(** Parsing the same text again gives an equal tree. *)
Lemma lexed_not_nan U text ts : unicode_ok U -> lex_text U text = Ok ts -> Forall (fun t => t_val t <> TFloat S754_nan) ts.
Proof.
  intros uok H. apply (lex_text_iff U uok) in H as (l & -> & Ht). constructor; [discriminate|].
  induction Ht as [p ws|p ws s rest ty v ts Hw Hl _ IH]; constructor; auto; cbn [t_val]; try discriminate.
  destruct Hl as [ty v Hs| | | | |neg ds es n| |]; try discriminate.
  - destruct Hs; discriminate.
  - intros [= E]. apply FloatLit.literal_rounds in H6. rewrite E in H6. symmetry in H6. now apply literal_not_nan in H6.
Qed.
Lemma parsed_not_nan U text last a n' : unicode_ok U -> parse_text U text last = Ok (a, n') -> ~ holds_nan a.
Proof.
  intros uok H. apply C08_text_sound in H as (u & e & Hl & He & Hg); [|exact uok].
  apply lexed_not_nan in Hl; [|exact uok].
  assert (T : Forall (fun t => t_val t <> TFloat S754_nan) (ptokens (erase a))).
  { inversion Hl as [|? ? _ Hl2]; subst. apply Forall_app in Hl2 as [Hl2 _].
    exact (proj2 (proj2 (tk_all (fun t => t_val t <> TFloat S754_nan))) u _ Hg Hl2). }
  rewrite ptokens_erase in T. intros (n & Hn & Hv). rewrite Forall_forall in T. apply (T (n_tok n)); auto.
  now apply in_map.
Qed.
Lemma eqb_erase a : forall b c, erase a = erase b -> ast_eqb a c = ast_eqb b c.
Proof.
  induction a as [k t i r ks IH] using ast_ind'. intros [k' t' i' r' ks'] [d s j q ls]. cbn [erase]. intros [= -> -> F].
  apply eq_true_iff_eq. rewrite !ast_eqb_unfold.
  assert (K : Forall2 (fun a b => ast_eqb a b = true) ks ls <-> Forall2 (fun a b => ast_eqb a b = true) ks' ls).
  { revert ks' F ls. induction IH as [|x l H _ IHl]; intros [|y m] F ls; try discriminate F; [tauto|]. cbn in F. injection F as F1 F2.
    split; inversion 1; subst; constructor; try (rewrite <- (H y _ F1); auto; fail); try (rewrite (H y _ F1); auto; fail);
    apply (IHl m F2 l'); auto. }
  now rewrite K.
Qed.
Theorem C75_same_text (U : unicode) (text : str) (last1 last2 n1 n2 : Z) (a b : ast) :
  unicode_ok U -> parse_text U text last1 = Ok (a, n1) -> parse_text U text last2 = Ok (b, n2) -> ast_eqb a b = true.
Proof.
  intros uok H1 H2. pose proof (parsed_not_nan U text last2 b n2 uok H2) as Hn.
  assert (E : erase a = erase b).
  { unfold parse_text in H1, H2. apply bind_ok in H1 as (ts & L1 & H1). apply bind_ok in H2 as (ts' & L2 & H2).
    rewrite L1 in L2. injection L2 as <-. apply C08_parser_sound in H1. apply C08_parser_sound in H2.
    eapply C10_derives_unambiguous; eauto. }
  rewrite (eqb_erase a b b E). now apply C75_equivalence.
Qed.

(** The class of a node of a parsed policy follows from the type of its token. *)
Definition class_for (ty : ttype) : option nclass :=
  match ty with
  | OP => Some COp | BOOL_OP => Some CBoolOp | NOT_OP => Some CNot | BOOL => Some CBoolVal
  | INT => Some CInt | FLOAT => Some CFloat | STRING => Some CString | NULL => Some CNull | LSET => Some (CSet None)
  | USR_ATT => Some CUsr | OBJ_ATT => Some CObj | ENV_ATT => Some CEnv | ADM_ATT => Some CAdm | CON_ATT => Some CCon
  | _ => None
  end.
Inductive classed : ptree -> Prop :=
| classed_pt c t ks : class_for (t_type t) = Some (plain c) -> Forall classed ks -> classed (PT c t ks).
Lemma classed_att u a : g_att u a -> classed a.
Proof. destruct 1 as [t H|t H|t H|t H|t H]; constructor; auto; rewrite H; reflexivity. Qed.
Lemma classed_atomic u a : g_atomic u a -> classed a.
Proof. destruct 1 as [t H|t H|t H|t H]; constructor; auto; rewrite H; reflexivity. Qed.
Lemma classed_setval u l : g_setval u l -> Forall classed l.
Proof. induction 1 as [u a H|u a c v l H Hc Hl IH]; constructor; auto; eapply classed_atomic; eauto. Qed.
Lemma classed_var u a : g_var u a -> classed a.
Proof.
  destruct 1 as [u a H|u a H|u a H]; [eapply classed_atomic; eauto| |eapply classed_att; eauto].
  destruct H as [lb rb Hl Hr|lb u l rb Hl Hs Hr]; constructor; auto; try (rewrite Hl; reflexivity). eapply classed_setval; eauto.
Qed.
Lemma classed_boolvar u a : g_boolvar u a -> classed a.
Proof. destruct 1 as [t H|u a H]; [constructor; auto; rewrite H; reflexivity|eapply classed_att; eauto]. Qed.
Lemma classed_g :
  (forall u a, g_exp u a -> classed a) /\ (forall u a, g_term u a -> classed a) /\ (forall u a, g_policy u a -> classed a).
Proof.
  apply g_mind; auto.
  - intros u l o v r Hl Ho Hr. constructor; [rewrite Ho; reflexivity|]. constructor; [eapply classed_var; eauto|].
    constructor; [eapply classed_var; eauto|auto].
  - intros u b H. eapply classed_boolvar; eauto.
  - intros t u b Ht H. constructor; [rewrite Ht; reflexivity|]. constructor; [eapply classed_boolvar; eauto|auto].
  - intros t lp u p rp Ht Hl Hp IH Hr. constructor; [rewrite Ht; reflexivity|]. auto.
  - intros u l a v r Hl IHl [Ha _] Hr IHr. constructor; [rewrite Ha; reflexivity|]. auto.
  - intros u l a v r Hl IHl [Ha _] Hr IHr. constructor; [rewrite Ha; reflexivity|]. auto.
Qed.
Lemma parsed_classed U text last a n' : unicode_ok U -> parse_text U text last = Ok (a, n') -> classed (erase a).
Proof. intros uok H. apply C08_text_sound in H as (u & e & _ & _ & Hg); auto. eapply classed_g; eauto. Qed.
Lemma classed_inv c t ks : classed (PT c t ks) -> class_for (t_type t) = Some (plain c) /\ Forall classed ks.
Proof. inversion 1; auto. Qed.

(** Derivation trees with the same classes and equal values. *)
Inductive pt_like : ptree -> ptree -> Prop :=
| ptl c t ks c' t' ks' : plain c = plain c' -> tokval_eqb (t_val t) (t_val t') = true -> Forall2 pt_like ks ks' ->
    pt_like (PT c t ks) (PT c' t' ks').
Lemma eqb_pt_like a : forall b, classed (erase a) -> classed (erase b) -> ast_eqb a b = true -> pt_like (erase a) (erase b).
Proof.
  induction a as [c t i r ks IH] using ast_ind'. intros [c' t' i' r' ks'] Ha Hb E. cbn [erase] in *.
  apply classed_inv in Ha as [C1 F1]. apply classed_inv in Hb as [C2 F2]. apply ast_eqb_unfold in E as [E F].
  apply token_eqb_split in E as (T & V & _). constructor; auto.
  - assert (X : t_type t = t_type t').
    { unfold ttype_eqb in T. apply N.eqb_eq in T. destruct (t_type t), (t_type t'); try discriminate T; reflexivity. }
    rewrite X in C1. congruence.
  - clear - IH F F1 F2. revert IH F1 F2. induction F as [|x y l m Hx _ IHF]; intros IH F1 F2; cbn [map]; constructor;
    inversion IH; inversion F1; inversion F2; subst; auto.
Qed.
Lemma like_str v w s : tokval_eqb v w = true -> v = TStr s -> w = TStr s.
Proof. intros E ->. destruct w; try discriminate. cbn in E. apply str_eqb_eq in E. now subst. Qed.
Lemma like_cat c c' k : plain c = plain c' -> abs_cat c = Some k -> c' = c.
Proof. destruct c, c'; cbn; intros; try discriminate; auto. Qed.
Lemma like_atom a b x y : pt_like a b -> abs_atom a = Some x -> abs_atom b = Some y -> atom_like x y.
Proof.
  destruct 1 as [c [ty tp v] ks c' [ty' tp' v'] ks' C E F]. cbn [t_val] in E.
  destruct c; try discriminate; destruct c'; try discriminate; cbn [abs_atom]; destruct ks; try discriminate;
  destruct ks'; try discriminate; destruct v; try discriminate; destruct v'; try discriminate;
  intros [= <-] [= <-]; try apply al_refl; cbn in E.
  - apply Z.eqb_eq in E. subst. apply al_refl.
  - apply al_float. exact E.
  - apply str_eqb_eq in E. subst. apply al_refl.
Qed.
Lemma like_atoms ks ks' : Forall2 pt_like ks ks' -> forall l m, optM abs_atom ks = Some l -> optM abs_atom ks' = Some m ->
  Forall2 atom_like l m.
Proof.
  induction 1 as [|a b ks ks' H _ IH]; intros l m; cbn [optM].
  - intros [= <-] [= <-]. constructor.
  - destruct (abs_atom a) as [x|] eqn:Ea; [|discriminate]. destruct (optM abs_atom ks); [|discriminate].
    destruct (abs_atom b) as [y|] eqn:Eb; [|discriminate]. destruct (optM abs_atom ks'); [|discriminate].
    intros [= <-] [= <-]. constructor; auto. eapply like_atom; eauto.
Qed.
Lemma like_operand a b x y : pt_like a b -> abs_operand a = Some x -> abs_operand b = Some y -> operand_like x y.
Proof.
  intros H Hx Hy. pose proof H as H0. destruct H as [c t ks c' t' ks' C E F].
  apply abs_operand_inv in Hx as [(e & l & -> & Hl & ->)|[(k & s & Hc & Hv & -> & ->)|(x0 & Hx & ->)]].
  - destruct c'; try discriminate C. destruct t' as [ty' tp' v']. cbn in Hy.
    destruct (optM abs_atom ks') as [m|] eqn:Em; [|discriminate]. injection Hy as <-. constructor. eapply like_atoms; eauto.
  - pose proof (like_cat c c' k C Hc) as ->. inversion F; subst. apply (like_str _ _ _ E) in Hv.
    apply abs_operand_inv in Hy as [(e & l & -> & _)|[(k' & s' & Hc' & Hv' & _ & ->)|(x0 & Hx & ->)]].
    + discriminate Hc.
    + rewrite Hc in Hc'. injection Hc' as <-. rewrite Hv in Hv'. injection Hv' as <-. constructor.
    + destruct c; try discriminate Hc; discriminate Hx.
  - apply abs_operand_inv in Hy as [(e & l & -> & _)|[(k' & s' & Hc' & Hv' & _ & ->)|(y0 & Hy & ->)]].
    + destruct c; discriminate.
    + symmetry in C. pose proof (like_cat c' c k' C Hc') as ->. destruct c'; try discriminate Hc'; discriminate Hx.
    + constructor. eapply like_atom; eauto.
Qed.
Lemma like_abs a : forall b p q, pt_like a b -> abs a = Some p -> abs b = Some q -> pol_like p q.
Proof.
  induction a as [c t ks IH] using ptree_ind'. intros b p q H Ha Hb. inversion H as [? ? ? c' t' ks' C E F]; subst.
  rewrite Forall_forall in IH.
  apply abs_inv in Ha as [(-> & -> & x & Hv & ->)|[(k & s & Hc & Hv & -> & ->)|[(-> & k & r & -> & Hr & ->)|
      [(-> & l & m & o & x & y & -> & Hv & Hl & Hr & ->)|(-> & l & m & x & y & -> & Hl & Hr & Hv)]]]];
  apply abs_inv in Hb as [(-> & Hk' & x' & Hv' & ->)|[(k' & s' & Hc' & Hv' & Hk' & ->)|[(-> & k' & r' & -> & Hr' & ->)|
      [(-> & l' & m' & o' & x' & y' & -> & Hv' & Hl' & Hr' & ->)|(-> & l' & m' & x' & y' & -> & Hl' & Hr' & Hv')]]]];
  try discriminate C; try (destruct c; discriminate); try (destruct c'; discriminate);
  repeat match goal with H : Forall2 _ _ (_ :: _) |- _ => inversion H; subst; clear H
                       | H : Forall2 _ _ [] |- _ => inversion H; subst; clear H end.
  - apply (like_str _ _ _ E) in Hv. rewrite Hv in Hv'. injection Hv' as E2. destruct x, x'; try discriminate E2; constructor.
  - apply (like_str _ _ _ E) in Hv. rewrite Hv in Hv'. injection Hv' as <-. pose proof (like_cat c c' k C Hc) as ->.
    rewrite Hc in Hc'. injection Hc' as <-. constructor.
  - constructor. eapply IH; eauto. now left.
  - apply (like_str _ _ _ E) in Hv. rewrite Hv in Hv'. injection Hv' as E2.
    assert (o = o') as <- by (destruct o, o'; try discriminate E2; reflexivity). constructor; [eapply like_operand; [|exact Hl|exact Hl']; assumption|eapply like_operand; [|exact Hr|exact Hr']; assumption].
  - assert (L1 : pol_like x x') by (eapply (IH l (or_introl eq_refl)); eauto).
    assert (L2 : pol_like y y') by (eapply (IH m (or_intror (or_introl eq_refl))); eauto).
    destruct Hv as [[Hv ->]|[Hv ->]], Hv' as [[Hv' ->]|[Hv' ->]]; apply (like_str _ _ _ E) in Hv; rewrite Hv in Hv'; try discriminate Hv';
    constructor; auto.
Qed.

(** Equal parsed policies decide alike and are judged alike by the type checker. *)
Theorem C75_decisions (U : unicode) (text1 text2 : str) (last1 last2 n1 n2 : Z) (a b : ast) :
  unicode_ok U -> parse_text U text1 last1 = Ok (a, n1) -> parse_text U text2 last2 = Ok (b, n2) -> ast_eqb a b = true ->
  forall h tb level, heap_ok h -> alike (evaluate U h (interp_new a) tb level) (evaluate U h (interp_new b) tb level).
Proof.
  intros uok P1 P2 E h tb level Hh.
  pose proof (eqb_pt_like a b (parsed_classed _ _ _ _ _ uok P1) (parsed_classed _ _ _ _ _ uok P2) E) as L.
  destruct (parsed U text1 last1 a n1 uok P1) as [F1 [p A1]]. destruct (parsed U text2 last2 b n2 uok P2) as [F2 [q A2]].
  apply (like_abs _ _ p q) in L; auto.
  eapply spec_alike; [exact (tree_eval U h a p tb level Hh F1 A1)|exact (tree_eval U h b q tb level Hh F2 A2)| |].
  - now apply pol_like_meaning.
  - intros c n ->. inversion L; subst; auto.
Qed.
Theorem C75_types (U : unicode) (text1 text2 : str) (last1 last2 n1 n2 : Z) (a b : ast) (p : pol) :
  unicode_ok U -> parse_text U text1 last1 = Ok (a, n1) -> parse_text U text2 last2 = Ok (b, n2) -> ast_eqb a b = true ->
  abs (erase a) = Some p -> steady U (attributes p) ->
  forall level levels,
    let c1 := fst (checks U (checker_new a) (level :: levels)) in
    let c2 := fst (checks U (checker_new b) (level :: levels)) in
    map issue_kind (get_issues c1) = map issue_kind (get_issues c2) /\ get_result c1 = get_result c2 /\
    forall c n, In (c, n) (attributes p) ->
      st_lookup_type U (ts_heap (tc_state c1)) (ts_table (tc_state c1)) (cat_word c ++ n) =
      st_lookup_type U (ts_heap (tc_state c2)) (ts_table (tc_state c2)) (cat_word c ++ n).
Proof.
  intros uok P1 P2 E A1 Hn level levels.
  pose proof (eqb_pt_like a b (parsed_classed _ _ _ _ _ uok P1) (parsed_classed _ _ _ _ _ uok P2) E) as L.
  destruct (parsed U text2 last2 b n2 uok P2) as [F2 [q A2]].
  apply (like_abs _ _ p q) in L; auto. destruct (like_comparisons p q L) as [C At]. cbv zeta.
  assert (Hn' : steady U (attributes q)) by (rewrite <- At; exact Hn).
  pose proof (tree_result U a p level levels (parsed_typed _ _ _ _ _ uok P1) A1 Hn) as (I1 & R1 & T1).
  pose proof (tree_result U b q level levels (parsed_typed _ _ _ _ _ uok P2) A2 Hn') as (I2 & R2 & T2).
  rewrite (like_kinds _ _ _ (times_like _ _ _ C (Datatypes.S (List.length levels))) [] [] (Forall2_nil _)) in I1, R1.
  rewrite I1, I2, R1, R2. repeat split; auto. intros c n Hi. rewrite T1, T2 by (try rewrite <- At; auto).
  now rewrite (like_inferred _ _ _ C).
Qed.

(** ** C76 *)

(** Evaluation changes nothing but results: whatever is evaluated, with which tables and
    levels, and whether it returns or raises. *)
Fixpoint skeleton (a : ast) : ast := let 'Node c t i _ ks := a in Node c t i None (map skeleton ks).
Definition same_frame (a b : ast) : Prop := erase a = erase b /\ map n_id (subtrees a) = map n_id (subtrees b).

Lemma skeleton_erase a : erase (skeleton a) = erase a.
Proof.
  induction a as [c t i r ks IH] using ast_ind'. cbn. f_equal. rewrite map_map.
  induction IH as [|k ks H _ IHk]; cbn; auto. now rewrite H, IHk.
Qed.
Lemma skeleton_ids a : map n_id (subtrees (skeleton a)) = map n_id (subtrees a).
Proof.
  induction a as [c t i r ks IH] using ast_ind'. cbn [skeleton subtrees n_kids map n_id]. f_equal.
  induction IH as [|k ks H _ IHk]; cbn [map flat_map]; auto. now rewrite !map_app, H, IHk.
Qed.
Lemma skeleton_encode_node a : encode_node (skeleton a) = encode_node a.
Proof.
  induction a as [c t i r ks IH] using ast_ind'. cbn [skeleton encode_node].
  assert (E : encode_one (Node c t i None (map skeleton ks)) = encode_one (Node c t i r ks)).
  { unfold encode_one. rewrite map_length. replace (mapM (fun k => pack_u 2 (n_id k)) (map skeleton ks))
      with (mapM (fun k => pack_u 2 (n_id k)) ks); auto.
    clear. induction ks as [|[c t i r l] ks IH]; cbn [map mapM skeleton n_id]; auto. now rewrite IH. }
  rewrite E. clear E. destruct (encode_one (Node c t i r ks)); cbn [bind]; auto.
  assert (K : forall l, Forall (fun a => encode_node (skeleton a) = encode_node a) l ->
    (fix go (l : list ast) : res (list bytes) :=
       match l with [] => Ok [] | k :: r => x <- encode_node k ;; y <- go r ;; Ok (x ++ y) end) (map skeleton l) =
    (fix go (l : list ast) : res (list bytes) :=
       match l with [] => Ok [] | k :: r => x <- encode_node k ;; y <- go r ;; Ok (x ++ y) end) l).
  { induction 1 as [|k l H _ IHk]; cbn [map]; auto. rewrite H. destruct (encode_node k); cbn [bind]; auto. now rewrite IHk. }
  now rewrite (K ks IH).
Qed.
Lemma skeleton_encode a b64 : encode (skeleton a) b64 = encode a b64.
Proof. unfold encode. rewrite skeleton_encode_node. destruct a. reflexivity. Qed.

Lemma eval_skeleton U h tb a : skeleton (fst (fst (eval_node U h tb a))) = skeleton a.
Proof.
  induction a as [c t i r ks IH] using ast_ind'. rewrite eval_node_unfold.
  assert (K : map skeleton (fst (fst (eval_kids U h tb ks))) = map skeleton ks).
  { induction IH as [|k l H _ IHk]; auto. rewrite eval_kids_cons. unfold visit.
    destruct (eval_kids U h tb l) as [[rest ws] e]. destruct (eval_node U h tb k) as [[k' ws1] [x|]];
    destruct (rtruthy (n_result k)); cbn [fst map] in *; congruence. }
  destruct (eval_kids U h tb ks) as [[ks' ws] [x|]]; cbn [fst] in *.
  - cbn. now rewrite K.
  - destruct (eval_self U h tb c t r ks') as [[r' ws2] x]. cbn. now rewrite K.
Qed.

(** Any number of evaluations with one interpreter. *)
Fixpoint evaluations (U : unicode) (it : interp) (calls : list (heap * option table * option Z)) : interp :=
  match calls with
  | [] => it
  | (h, tb, level) :: rest => evaluations U (fst (evaluate U h it tb level)) rest
  end.
Lemma evaluate_frame U h it tb level :
  skeleton (i_ast (fst (evaluate U h it tb level))) = skeleton (i_ast it) /\
  exists ws, i_warnings (fst (evaluate U h it tb level)) = i_warnings it ++ ws.
Proof.
  unfold evaluate. set (t := match tb with Some t => t | None => [] end).
  pose proof (eval_skeleton U h t (i_ast it)) as S. destruct (eval_node U h t (i_ast it)) as [[a ws] [x|]]; cbn [fst i_ast i_warnings] in *;
  [split; [exact S|exists ws; reflexivity]|]. destruct (i_warnings it ++ ws) as [|w l] eqn:E; [|destruct level as [lv|]; [destruct (lv <=? warn_level)|]];
  cbn [fst i_ast i_warnings]; (split; [exact S|exists ws; congruence]).
Qed.
Theorem C76_evaluation (U : unicode) (it : interp) (calls : list (heap * option table * option Z)) :
  let it' := evaluations U it calls in
  same_frame (i_ast it') (i_ast it) /\
  (forall b64, encode (i_ast it') b64 = encode (i_ast it) b64) /\
  (forall b, ast_eqb (i_ast it') b = ast_eqb (i_ast it) b) /\
  exists ws, i_warnings it' = i_warnings it ++ ws.
Proof.
  cbv zeta. assert (S : skeleton (i_ast (evaluations U it calls)) = skeleton (i_ast it) /\
    exists ws, i_warnings (evaluations U it calls) = i_warnings it ++ ws).
  { revert it. induction calls as [|[[h tb] level] calls IH]; intros it; cbn [evaluations].
    - split; auto. exists []. now rewrite app_nil_r.
    - destruct (evaluate_frame U h it tb level) as (S & ws & W). destruct (IH (fst (evaluate U h it tb level))) as (S' & ws' & W').
      split; [congruence|]. exists (ws ++ ws'). rewrite W', W. now rewrite app_assoc. }
  destruct S as [S W]. split; [|split; [|split; auto]].
  - split; [rewrite <- (skeleton_erase (i_ast (evaluations U it calls))), S; apply skeleton_erase|].
    rewrite <- (skeleton_ids (i_ast (evaluations U it calls))), S. apply skeleton_ids.
  - intros b64. rewrite <- (skeleton_encode (i_ast (evaluations U it calls))), S. apply skeleton_encode.
  - intros b. apply eqb_erase. rewrite <- (skeleton_erase (i_ast (evaluations U it calls))), S. apply skeleton_erase.
Qed.

(** calc_num_nodes counts the nodes. *)
Theorem C76_count (a : ast) : num_nodes a = List.length (subtrees a).
Proof. symmetry. apply subtrees_num. Qed.

(** The nodes of a parsed policy are exactly its tokens without parentheses, commas and
    closing braces, each once. *)
Definition significant (t : token) : bool :=
  match t_type t with START | END | LPARN | RPARN | COMMA | RSET => false | _ => true end.

Lemma perm_insert {A} (x : A) l m k : Permutation l m -> Permutation (x :: l ++ k) (m ++ x :: k).
Proof. intros H. rewrite H. apply Permutation_middle. Qed.
Ltac sig t H b := replace (significant t) with b by (unfold significant; now rewrite H).
Lemma pm_atomic u a : g_atomic u a -> Permutation (ptokens a) (filter significant u).
Proof. destruct 1 as [t H|t H|t H|t H]; cbn; unfold significant; rewrite H; auto. Qed.
Lemma pm_att u a : g_att u a -> Permutation (ptokens a) (filter significant u).
Proof. destruct 1 as [t H|t H|t H|t H|t H]; cbn; unfold significant; rewrite H; auto. Qed.
Lemma pm_setval u l : g_setval u l -> Permutation (flat_map ptokens l) (filter significant u).
Proof.
  induction 1 as [u a H|u a c v l H Hc Hl IH]; cbn [flat_map].
  - rewrite app_nil_r. now apply pm_atomic.
  - rewrite filter_app. cbn [filter]. sig c Hc false. apply Permutation_app; auto. now apply pm_atomic.
Qed.
Lemma pm_var u a : g_var u a -> Permutation (ptokens a) (filter significant u).
Proof.
  destruct 1 as [u a H|u a H|u a H]; [now apply pm_atomic| |now apply pm_att].
  destruct H as [lb rb Hl Hr|lb u l rb Hl Hs Hr]; cbn [ptokens flat_map filter].
  - sig lb Hl true. sig rb Hr false. auto.
  - rewrite filter_app. cbn [filter]. sig lb Hl true. sig rb Hr false. rewrite app_nil_r. constructor. now apply pm_setval.
Qed.
Lemma pm_boolvar u a : g_boolvar u a -> Permutation (ptokens a) (filter significant u).
Proof. destruct 1 as [t H|u a H]; [cbn; unfold significant; rewrite H; auto|now apply pm_att]. Qed.
Lemma pm_all :
  (forall u a, g_exp u a -> Permutation (ptokens a) (filter significant u)) /\
  (forall u a, g_term u a -> Permutation (ptokens a) (filter significant u)) /\
  (forall u a, g_policy u a -> Permutation (ptokens a) (filter significant u)).
Proof.
  apply g_mind; auto.
  - intros u l o v r Hl Ho Hr. cbn [ptokens flat_map]. rewrite app_nil_r, filter_app. cbn [filter].
    sig o Ho true. rewrite (pm_var _ _ Hr). apply perm_insert. now apply pm_var.
  - intros u b. apply pm_boolvar.
  - intros t u b Ht Hb. cbn [ptokens flat_map filter]. rewrite app_nil_r. sig t Ht true. constructor.
    now apply pm_boolvar.
  - intros lp u p rp Hl Hp IH Hr. cbn [filter]. rewrite filter_app. cbn [filter]. sig lp Hl false. sig rp Hr false.
    rewrite app_nil_r. exact IH.
  - intros t lp u p rp Ht Hl Hp IH Hr. cbn [ptokens flat_map filter]. rewrite filter_app. cbn [filter].
    sig t Ht true. sig lp Hl false. sig rp Hr false. rewrite !app_nil_r. now constructor.
  - intros u l a v r Hl IHl [Ha _] Hr IHr. cbn [ptokens flat_map]. rewrite app_nil_r, filter_app. cbn [filter].
    sig a Ha true. rewrite IHr. now apply perm_insert.
  - intros u l a v r Hl IHl [Ha _] Hr IHr. cbn [ptokens flat_map]. rewrite app_nil_r, filter_app. cbn [filter].
    sig a Ha true. rewrite IHr. now apply perm_insert.
Qed.
Theorem C76_tokens (U : unicode) (text : str) (last n' : Z) (a : ast) (ts : list token) :
  unicode_ok U -> parse_text U text last = Ok (a, n') -> lex_text U text = Ok ts ->
  Permutation (map n_tok (subtrees a)) (filter significant ts) /\
  Z.of_nat (num_nodes a) = n' - last /\ num_nodes a = List.length (filter significant ts).
Proof.
  intros uok H L. pose proof H as H0. apply C08_text_sound in H0 as (u & e & Hl & He & Hg); [|exact uok].
  rewrite L in Hl. injection Hl as ->.
  assert (P : Permutation (map n_tok (subtrees a)) (filter significant (start_token :: u ++ [e]))).
  { rewrite <- ptokens_erase. cbn [filter]. rewrite filter_app. cbn [filter]. sig e He false. rewrite app_nil_r.
    now apply (proj2 (proj2 pm_all)). }
  split; [exact P|]. split.
  - destruct (parsed_ids U text last a n' H) as (_ & En & _). rewrite C76_count. lia.
  - rewrite C76_count. rewrite <- (Permutation_length P). now rewrite map_length.
Qed.

(** ** Concrete cases *)

Example ex_equal_spelling : exists a b n m,
  parse_text ascii_only (lit "user.age >= 18.0 AND NOT object.secret") 4 = Ok (a, n) /\
  parse_text ascii_only (lit "User.age >= 18.0 and not Object.secret") 9 = Ok (b, m) /\
  ast_eqb a b = true /\ a <> b /\ num_nodes a = 6%nat /\ n = 10 /\ ~ holds_nan a.
Proof.
  eexists _, _, _, _. split; [vm_compute; reflexivity|]. split; [vm_compute; reflexivity|].
  split; [vm_compute; reflexivity|]. split; [vm_compute; discriminate|]. split; [vm_compute; reflexivity|].
  split; [reflexivity|]. rewrite <- (proj2 (proj2 C75_equivalence)). vm_compute. reflexivity.
Qed.
(** The position is part of a token, so the same policy with other white space is not equal. *)
Theorem C75_layout_refuted : exists text1 text2 a b n m p,
  parse_text ascii_only text1 0 = Ok (a, n) /\ parse_text ascii_only text2 0 = Ok (b, m) /\
  abs (erase a) = Some p /\ abs (erase b) = Some p /\ ast_eqb a b = false.
Proof.
  exists (lit "user.age>=18"), (lit "user.age >= 18"). eexists _, _, _, _, _.
  split; [vm_compute; reflexivity|]. split; [vm_compute; reflexivity|]. split; [vm_compute; reflexivity|].
  split; vm_compute; reflexivity.
Qed.
(** Trees that were not parsed can be equal and still decide differently, because the class is not compared. *)
Theorem C75_class_refuted : exists bs1 bs2 g1 g2 a b h tb,
  snd (decode ascii_only bs1 false 0) = Ok (g1, 0) /\ denotes g1 0 a /\
  snd (decode ascii_only bs2 false 0) = Ok (g2, 0) /\ denotes g2 0 b /\ ast_eqb a b = true /\ heap_ok h /\
  snd (evaluate ascii_only h (interp_new a) tb (Some 3)) = Ok (Some (RV (VTri TRUE))) /\
  snd (evaluate ascii_only h (interp_new b) tb (Some 3)) = Ok (Some (RV (VTri FALSE))).
Proof.
  exists [1; 1;0; 0;0; 0;0; 51; 4; 0;0; 1;0; 0;0; 120]%N, [1; 1;0; 0;0; 0;0; 52; 4; 0;0; 1;0; 0;0; 120]%N.
  eexists _, _, (Node CUsr (Tok USR_ATT 0 (TStr (lit "x"))) 0 None []), (Node CObj (Tok USR_ATT 0 (TStr (lit "x"))) 0 None []).
  exists [ex_sym (lit "x") USR_ATT ST_BOOL (VTri TRUE); ex_sym (lit "x") OBJ_ATT ST_BOOL (VTri FALSE)].
  exists (Some [(lit "user.x", 0%nat); (lit "object.x", 1%nat)]).
  split; [vm_compute; reflexivity|]. split; [apply (Denotes [(0, GN CUsr (Tok USR_ATT 0 (TStr (lit "x"))) 0 None [])] 0 (GN CUsr (Tok USR_ATT 0 (TStr (lit "x"))) 0 None []) []); [vm_compute; reflexivity|constructor]|].
  split; [vm_compute; reflexivity|]. split; [apply (Denotes [(0, GN CObj (Tok USR_ATT 0 (TStr (lit "x"))) 0 None [])] 0 (GN CObj (Tok USR_ATT 0 (TStr (lit "x"))) 0 None []) []); [vm_compute; reflexivity|constructor]|].
  split; [vm_compute; reflexivity|]. split; [repeat constructor|]. split; vm_compute; reflexivity.
Qed.
(** Evaluations that raise and that return, with other tables. *)
Example ex_evaluated : exists a n' bs, parse_text ascii_only (lit "user.age > 20 AND user.x") 0 = Ok (a, n') /\ encode a false = Ok bs /\
  (let it := evaluations ascii_only (interp_new a) [(ex_heap, Some ex_table, Some 3); (ex_heap, None, None)] in
   i_ast it <> a /\ encode (i_ast it) false = Ok bs /\ i_warnings it <> []).
Proof.
  eexists _, _, _. split; [vm_compute; reflexivity|]. split; [vm_compute; reflexivity|]. cbv zeta.
  split; [vm_compute; discriminate|]. split; [vm_compute; reflexivity|vm_compute; discriminate].
Qed.

Print Assumptions C75_equal.
Print Assumptions C75_equivalence.
Print Assumptions C75_same_text.
Print Assumptions C75_decisions.
Print Assumptions C75_types.
Print Assumptions C75_layout_refuted.
Print Assumptions C75_class_refuted.
Print Assumptions C76_evaluation.
Print Assumptions C76_count.
Print Assumptions C76_tokens.
