(** * TypeProofs: the type checker computes the specification *)

From Coq Require Import NArith ZArith List Bool String Lia.
From Verif Require Import PyBase PyNum Lexer LexSpec LexProofs LexProofs2 LexProps Values Ast Parser Grammar
  ParseProofs ParseProofs2 Syntax PrintProofs ParseProps AbsProofs Symbols Interp EvalSpec EvalProofs EvalProofs2
  SymbolProps TypeCheck TypeSpec.
Import ListNotations.
Open Scope Z_scope.

(** ** Token types of parsed trees *)

Definition class_type (c : nclass) : option ttype :=
  match c with
  | CInt => Some INT | CFloat => Some FLOAT | CString => Some STRING | CNull => Some NULL
  | CSet _ => Some LSET | CUsr => Some USR_ATT | CObj => Some OBJ_ATT | CEnv => Some ENV_ATT
  | CAdm => Some ADM_ATT | CCon => Some CON_ATT | _ => None
  end.
Inductive typed : ptree -> Prop :=
| typed_pt c t ks : (forall ty, class_type c = Some ty -> t_type t = ty) -> Forall typed ks -> typed (PT c t ks).

Ltac ty1 := constructor; [cbn; congruence|auto].

Lemma typed_att u a : g_att u a -> typed a.
Proof. destruct 1; ty1. Qed.
Lemma typed_atomic u a : g_atomic u a -> typed a.
Proof. destruct 1; ty1. Qed.
Lemma typed_setval u l : g_setval u l -> Forall typed l.
Proof. induction 1 as [u a H|u a c v l H Hc Hl IH]; constructor; auto; eapply typed_atomic; eauto. Qed.
Lemma typed_var u a : g_var u a -> typed a.
Proof.
  destruct 1 as [u a H|u a H|u a H]; [eapply typed_atomic; eauto| |eapply typed_att; eauto].
  destruct H as [lb rb Hl Hr|lb u l rb Hl Hs Hr]; ty1. eapply typed_setval; eauto.
Qed.
Lemma typed_boolvar u a : g_boolvar u a -> typed a.
Proof. destruct 1 as [t H|u a H]; [ty1|eapply typed_att; eauto]. Qed.
Lemma typed_g :
  (forall u a, g_exp u a -> typed a) /\ (forall u a, g_term u a -> typed a) /\ (forall u a, g_policy u a -> typed a).
Proof.
  apply g_mind; auto.
  - intros u l o v r Hl Ho Hr. constructor; [cbn; congruence|]. constructor; [eapply typed_var; eauto|].
    constructor; [eapply typed_var; eauto|auto].
  - intros u b H. eapply typed_boolvar; eauto.
  - intros t u b Ht H. constructor; [cbn; congruence|]. constructor; [eapply typed_boolvar; eauto|auto].
  - intros t lp u p rp Ht Hl Hp IH Hr. constructor; [cbn; congruence|]. auto.
  - intros u l a v r Hl IHl Ha Hr IHr. constructor; [cbn; congruence|]. auto.
  - intros u l a v r Hl IHl Ha Hr IHr. constructor; [cbn; congruence|]. auto.
Qed.

Lemma typed_inv c t ks : typed (PT c t ks) -> (forall ty, class_type c = Some ty -> t_type t = ty) /\ Forall typed ks.
Proof. inversion 1; auto. Qed.

(** ** Lists of keys *)

Lemma mem_in k l : mem k l = true <-> In k l.
Proof.
  unfold mem. rewrite existsb_exists. split.
  - intros (x & Hx & E). apply str_eqb_eq in E. now subst.
  - intros H. exists k. split; auto. apply str_eqb_refl.
Qed.
Lemma mem_notin k l : mem k l = false <-> ~ In k l.
Proof. rewrite <- mem_in. destruct (mem k l); split; congruence. Qed.

Lemma firsts_in l : forall seen k, In k (firsts seen l) <-> In k l /\ ~ In k seen.
Proof.
  induction l as [|x l IH]; intros seen k; cbn; [tauto|].
  destruct (mem x seen) eqn:E.
  - apply mem_in in E. rewrite IH. split; [tauto|]. intros [[->|H] Hn]; tauto.
  - apply mem_notin in E. cbn. rewrite IH. cbn. split.
    + intros [->|[H Hn]]; split; auto.
    + intros [[->|H] Hn]; auto. destruct (list_eq_dec N.eq_dec x k) as [->|Hne]; auto.
      right. split; auto. intros [->|Hi]; tauto.
Qed.
Lemma firsts_nodup l : forall seen, NoDup (firsts seen l).
Proof.
  induction l as [|x l IH]; intros seen; cbn; [constructor|].
  destruct (mem x seen); auto. constructor; auto. rewrite firsts_in. cbn. tauto.
Qed.
Lemma firsts_ext l : forall s s', (forall x, In x s <-> In x s') -> firsts s l = firsts s' l.
Proof.
  induction l as [|x l IH]; intros s s' H; cbn; auto.
  assert (E : mem x s = mem x s').
  { destruct (mem x s) eqn:E1, (mem x s') eqn:E2; auto.
    - apply mem_in in E1. apply mem_notin in E2. apply H in E1. tauto.
    - apply mem_notin in E1. apply mem_in in E2. apply H in E2. tauto. }
  rewrite E. destruct (mem x s'); auto. f_equal. apply IH. intros y. cbn. rewrite H. tauto.
Qed.
Lemma firsts_snoc l : forall seen k,
  firsts seen (l ++ [k]) = firsts seen l ++ (if mem k (seen ++ l) then [] else [k]).
Proof.
  induction l as [|x l IH]; intros seen k; cbn [app firsts].
  - rewrite app_nil_r. cbn. destruct (mem k seen); auto.
  - destruct (mem x seen) eqn:E.
    + rewrite IH. f_equal. apply mem_in in E.
      replace (mem k (seen ++ x :: l)) with (mem k (seen ++ l)); auto.
      destruct (mem k (seen ++ l)) eqn:E1; symmetry.
      * apply mem_in. apply mem_in in E1. apply in_app_or in E1. apply in_or_app. cbn. tauto.
      * apply mem_notin. apply mem_notin in E1. intros H. apply E1. apply in_app_or in H. apply in_or_app.
        destruct H as [H|[->|H]]; auto.
    + rewrite IH. cbn. f_equal. f_equal.
      replace (mem k (seen ++ x :: l)) with (mem k (x :: seen ++ l)); auto.
      destruct (mem k (x :: seen ++ l)) eqn:E1; symmetry.
      * apply mem_in. apply mem_in in E1. destruct E1 as [->|E1]; apply in_or_app; cbn; auto.
        apply in_app_or in E1. tauto.
      * apply mem_notin. apply mem_notin in E1. intros H. apply E1. apply in_app_or in H. cbn.
        destruct H as [H|[->|H]]; auto; right; apply in_or_app; auto.
Qed.

(** ** Inferred types *)

Lemma type_eqb_ok a b : symtype_eqb a b = type_eqb a b.
Proof. destruct a, b; reflexivity. Qed.
Lemma type_eqb_eq a b : type_eqb a b = true <-> a = b.
Proof. destruct a, b; split; intros H; try discriminate; auto. Qed.
Lemma num_type_ok a : is_num_type a = numeric a.
Proof. destruct a; reflexivity. Qed.

Section WithUnicode.
Variable U : unicode.

Lemma told_inv o a x y t : told U o a x y = Some t ->
  exists c n, x = OAtt c n /\ const_type y = Some t /\ same_att U (c, n) a = true /\ tells o t = true.
Proof.
  unfold told. intros H. destruct x as [| |c n]; try discriminate. destruct (const_type y) as [u|]; try discriminate.
  destruct (same_att U _ a) eqn:E1; [|discriminate]. cbn in H. destruct (tells o u) eqn:E; [|discriminate].
  injection H as ->. eauto 6.
Qed.
Lemma evidence_inv o l r a t : evidence U a (o, l, r) = Some t -> told U o a l r = Some t \/ told U o a r l = Some t.
Proof. unfold evidence. destruct (told U o a l r) as [u|]; auto. Qed.
Lemma evidence_known a k t : evidence U a k = Some t -> t <> ST_UNKNOWN.
Proof.
  destruct k as [[o l] r]. intros H. assert (T : tells o t = true).
  { apply evidence_inv in H as [H|H]; apply told_inv in H as (c & n & _ & _ & _ & H); auto. }
  intros ->. unfold tells in T. destruct (op_class_of o); discriminate.
Qed.
Lemma inferred_snoc ks k a : inferred U (ks ++ [k]) a =
  if type_eqb (inferred U ks a) ST_UNKNOWN
  then match evidence U a k with Some t => t | None => ST_UNKNOWN end
  else inferred U ks a.
Proof.
  induction ks as [|x ks IH]; cbn [app inferred]; auto.
  destruct (evidence U a x) as [t|] eqn:E; auto.
  apply evidence_known in E. destruct (type_eqb t ST_UNKNOWN) eqn:E1; auto. apply type_eqb_eq in E1. congruence.
Qed.
Lemma evidence_key a b k : att_key U a = att_key U b -> evidence U a k = evidence U b k.
Proof. intros H. destruct k as [[o l] r]. unfold evidence, told, same_att. now rewrite H. Qed.
Lemma inferred_key a b ks : att_key U a = att_key U b -> inferred U ks a = inferred U ks b.
Proof.
  intros H. induction ks as [|k ks IH]; cbn; auto. rewrite (evidence_key a b k H), IH. reflexivity.
Qed.

(** ** The invariant *)

Definition att_symbol (ks : list (cmp * operand * operand)) (a : cat * str) : symbol :=
  Sym (att_key U a) (py_lower U (snd a)) (cat_type (fst a)) (inferred U ks a) VNone.

Record tinv (st : tstate) (atts : list (cat * str)) (ks : list (cmp * operand * operand)) (iss : list issue) : Prop := {
  ti_keys : map fst (ts_table st) = firsts [] (map (att_key U) atts);
  ti_syms : forall k l, In (k, l) (ts_table st) -> (l < List.length (ts_heap st))%nat /\
              exists a, In a atts /\ steady_name U a /\ att_key U a = k /\
                        hget (ts_heap st) l = att_symbol ks a;
  ti_issues : ts_issues st = iss
}.

Lemma cat_key c n : steady_name U (c, n) -> py_lower U (cat_prefix c ++ n) = att_key U (c, n).
Proof. intros H. apply H. now left. Qed.
Lemma key_lower c n : steady_name U (c, n) -> py_lower U (att_key U (c, n)) = att_key U (c, n).
Proof. intros H. apply H. now right. Qed.

Lemma key_new k n :
  symbol_new U n (Some (cat_type k)) (Some ST_UNKNOWN) VNone =
  Sym (att_key U (k, n)) (py_lower U n) (cat_type k) ST_UNKNOWN VNone.
Proof. unfold symbol_new. destruct k; reflexivity. Qed.

Lemma tinv_lookup st atts ks iss c n : tinv st atts ks iss -> In (c, n) atts -> steady_name U (c, n) ->
  exists l, assoc (att_key U (c, n)) (ts_table st) = Some l /\ (l < List.length (ts_heap st))%nat /\
  exists a, att_key U a = att_key U (c, n) /\ steady_name U a /\ In a atts /\ hget (ts_heap st) l = att_symbol ks a.
Proof.
  intros [K S I] Hi Ha.
  assert (Hk : In (att_key U (c, n)) (map fst (ts_table st))).
  { rewrite K, firsts_in. split; [|auto]. apply in_map_iff. exists (c, n). auto. }
  apply in_map_iff in Hk as ([k l] & Hk & Hin). cbn in Hk. subst k. exists l.
  split; [apply in_assoc; auto; rewrite K; apply firsts_nodup|].
  destruct (S _ _ Hin) as (Hl & a & Hia & Haa & Hka & Hg). split; auto. exists a. auto.
Qed.

Lemma att_node_ok st atts ks iss c t i r kids k n :
  tinv st atts ks iss -> abs_cat c = Some k -> t_val t = TStr n -> t_type t = cat_type k -> steady_name U (k, n) ->
  inferred U ks (k, n) = ST_UNKNOWN \/ In (k, n) atts ->
  exists st', att_node U st (Node c t i r kids) = (st', None) /\ tinv st' (atts ++ [(k, n)]) ks iss.
Proof.
  intros [K S I] Hc Hv Ht Ha Hu. unfold att_node. cbn [n_tok]. rewrite Hv, Ht, (key_new k n).
  unfold halloc, st_define. rewrite hget_new. cbn [sy_name]. rewrite (key_lower k n Ha).
  assert (Keep : forall q l, In (q, l) (ts_table st) ->
    (l < List.length (ts_heap st ++ [Sym (att_key U (k, n)) (py_lower U n) (cat_type k) ST_UNKNOWN VNone]))%nat /\
    exists a, In a (atts ++ [(k, n)]) /\ steady_name U a /\ att_key U a = q /\
      hget (ts_heap st ++ [Sym (att_key U (k, n)) (py_lower U n) (cat_type k) ST_UNKNOWN VNone]) l = att_symbol ks a).
  { intros q l Hi. destruct (S _ _ Hi) as (Hl & a & H1 & H2 & H3 & H4). split; [rewrite app_length; cbn; lia|].
    exists a. rewrite hget_app by auto. repeat split; auto. apply in_or_app. auto. }
  destruct (assoc (att_key U (k, n)) (ts_table st)) as [l0|] eqn:E.
  - eexists. split; [reflexivity|]. split; cbn [ts_table ts_heap ts_issues]; auto.
    rewrite map_app. change (map (att_key U) [(k, n)]) with [att_key U (k, n)]. rewrite firsts_snoc, <- K. cbn [app].
    apply assoc_in in E. assert (Hm : mem (att_key U (k, n)) (map (att_key U) atts) = true).
    { apply mem_in. destruct (S _ _ E) as (_ & a & H1 & _ & H3 & _). rewrite <- H3. now apply in_map. }
    rewrite Hm. now rewrite app_nil_r.
  - eexists. split; [reflexivity|]. apply assoc_none in E. rewrite K, firsts_in in E.
    assert (Hn : ~ In (att_key U (k, n)) (map (att_key U) atts)) by (cbn in E; tauto).
    split; cbn [ts_table ts_heap ts_issues]; auto.
    + rewrite !map_app. change (map (att_key U) [(k, n)]) with [att_key U (k, n)]. rewrite firsts_snoc, K. cbn [app map fst]. apply mem_notin in Hn. now rewrite Hn.
    + intros q l Hi. apply in_app_or in Hi as [Hi|[[= <- <-]|[]]]; auto. split; [rewrite app_length; cbn; lia|].
      exists (k, n). rewrite hget_new. repeat split; auto; [apply in_or_app; cbn; auto|].
      unfold att_symbol. cbn [fst snd]. destruct Hu as [->|Hi]; auto.
      exfalso. apply Hn. now apply in_map.
Qed.

(** ** Operands *)

Definition is_oatt (o : operand) : bool := match o with OAtt _ _ => true | _ => false end.

Lemma operand_view nd o : abs_operand (erase nd) = Some o -> typed (erase nd) ->
  is_att nd = is_oatt o /\
  is_string nd = match kind_of o with KText => true | _ => false end /\
  is_null nd = match kind_of o with KNothing => true | _ => false end /\
  is_int nd || is_float nd = match kind_of o with KNumber => true | _ => false end /\
  is_setn nd = match kind_of o with KColl => true | _ => false end /\
  (forall t, const_type o = Some t -> convert_token_type (t_type (n_tok nd)) = t) /\
  (forall c n, o = OAtt c n -> att_to_symbol_name (n_cls nd) (n_tok nd) = Ok (cat_prefix c ++ n)) /\
  pt_tok (erase nd) = n_tok nd.
Proof.
  destruct nd as [c t i r ks]. cbn [erase]. intros Ha Ht. apply typed_inv in Ht as [Ht _].
  unfold is_att, is_string, is_null, is_int, is_float, is_setn. cbn [n_cls n_tok].
  apply abs_operand_inv in Ha as [(e & l & -> & _ & ->)|[(k & s & Hc & Hv & _ & ->)|(a & Ha & ->)]].
  - cbn. repeat split; auto; try congruence. intros t' [= <-]. rewrite (Ht LSET) by reflexivity. reflexivity.
  - destruct c; try discriminate; cbn in Hc; injection Hc as <-; cbn; repeat split; auto; try congruence;
    intros c' n' [= <- <-]; unfold att_to_symbol_name; cbn; rewrite Hv; reflexivity.
  - destruct (abs_atom_leaf _ _ _ _ Ha) as [E D]. destruct t as [ty tp v]. destruct ks; [|discriminate].
    destruct D as [->|[->|[->| ->]]]; cbn in Ha |- *; destruct v; try discriminate; injection Ha as <-; cbn;
    repeat split; auto; try congruence; intros t' [= <-];
    cbn in Ht; rewrite (Ht _ eq_refl); reflexivity.
Qed.

Definition all_in (o : operand) (atts : list (cat * str)) : Prop :=
  forall c n, o = OAtt c n -> In (c, n) atts /\ steady_name U (c, n).

Lemma clash_ok a b : negb (symtype_eqb a b) && negb (is_num_type a && is_num_type b) = clash a b.
Proof. unfold clash. now rewrite type_eqb_ok, !num_type_ok. Qed.

(** A comparison that tells nothing leaves the inferred types unchanged. *)
Lemma tinv_silent st atts ks iss k : tinv st atts ks iss ->
  (forall a, In a atts -> inferred U ks a = ST_UNKNOWN -> evidence U a k = None) -> tinv st atts (ks ++ [k]) iss.
Proof.
  intros [K S I] H. split; auto. intros q l Hi. destruct (S _ _ Hi) as (Hl & a & H1 & H2 & H3 & H4).
  split; auto. exists a. repeat split; auto. rewrite H4. unfold att_symbol. rewrite inferred_snoc.
  destruct (type_eqb _ _) eqn:E; auto. apply type_eqb_eq in E. rewrite E, (H a) by auto. reflexivity.
Qed.

Lemma tinv_issue st atts ks iss x : tinv st atts ks iss ->
  tinv (TS (ts_heap st) (ts_table st) (ts_issues st ++ [x])) atts ks (iss ++ [x]).
Proof. intros [K S I]. split; cbn; auto. now rewrite I. Qed.

Lemma type_error_ok st atts ks iss nd c l r : tinv st atts ks iss ->
  tinv (type_error st nd c l r) atts ks
    (iss ++ [Issue (match c with AttCheck => 2 | _ => 3 end) c (t_pos (n_tok nd)) (n_tok nd) (n_tok l) (n_tok r)]).
Proof. intros H. unfold type_error. now apply tinv_issue. Qed.

(** Setting the type of an attribute nothing was known about. *)
Lemma tinv_told st atts ks iss k c n l t :
  tinv st atts ks iss -> assoc (att_key U (c, n)) (ts_table st) = Some l ->
  inferred U ks (c, n) = ST_UNKNOWN ->
  (evidence U (c, n) k = Some t \/ evidence U (c, n) k = None /\ t = ST_UNKNOWN) ->
  (forall a, att_key U a <> att_key U (c, n) -> evidence U a k = None) ->
  tinv (TS (hset (ts_heap st) l (set_sy_type (hget (ts_heap st) l) t)) (ts_table st) (ts_issues st))
    atts (ks ++ [k]) iss.
Proof.
  intros [K S I] El Hu He Ho. pose proof (assoc_in _ _ _ El) as Hin.
  destruct (S _ _ Hin) as (Hl & a & H1 & H2 & H3 & H4).
  split; cbn [ts_table ts_heap ts_issues]; auto.
  intros q l' Hi. rewrite hset_length. destruct (S _ _ Hi) as (Hl' & a' & G1 & G2 & G3 & G4). split; auto.
  exists a'. repeat split; auto.
  assert (In_u : inferred U (ks ++ [k]) (c, n) = t).
  { rewrite inferred_snoc, Hu. destruct He as [->|[-> ->]]; reflexivity. }
  destruct (Nat.eq_dec l l') as [<-|Hne].
  - rewrite hset_same by auto. rewrite G4. unfold set_sy_type, att_symbol. cbn.
    assert (Hka : att_key U a' = att_key U (c, n)).
    { rewrite H4 in G4. injection G4 as E _ _ _. congruence. }
    f_equal. now rewrite (inferred_key a' (c, n)).
  - rewrite hset_other by auto. rewrite G4. unfold att_symbol. f_equal.
    rewrite inferred_snoc. destruct (type_eqb (inferred U ks a') ST_UNKNOWN) eqn:E; auto. apply type_eqb_eq in E.
    rewrite E. rewrite Ho; auto. intros Eq. apply Hne.
    assert (G5 : assoc q (ts_table st) = Some l') by (apply in_assoc; auto; rewrite K; apply firsts_nodup).
    congruence.
Qed.

Lemma evidence_both_att c n d m o a : evidence U a (o, OAtt c n, OAtt d m) = None.
Proof. reflexivity. Qed.
Lemma same_refl a : same_att U a a = true.
Proof. apply str_eqb_refl. Qed.
Lemma same_other a b : att_key U a <> att_key U b -> same_att U b a = false.
Proof. intros H. unfold same_att. destruct (str_eqb _ _) eqn:E; auto. apply str_eqb_eq in E. congruence. Qed.

Lemma evidence_left c n x o a : is_oatt x = false ->
  evidence U a (o, OAtt c n, x) =
  match const_type x with Some t => if same_att U (c, n) a && tells o t then Some t else None | None => None end.
Proof. unfold evidence, told. destruct x; try discriminate; destruct (const_type _); cbn; auto; destruct (_ && _); auto. Qed.
Lemma evidence_right c n x o a : is_oatt x = false ->
  evidence U a (o, x, OAtt c n) =
  match const_type x with Some t => if same_att U (c, n) a && tells o t then Some t else None | None => None end.
Proof. unfold evidence, told. destruct x; try discriminate; destruct (const_type _); cbn; auto; destruct (_ && _); auto. Qed.

Definition cmp_class (o : cmp) : bool := match op_class_of o with Ineq | Equality => true | _ => false end.

(** The attribute and the constant of a mixed comparison. *)
Lemma att_const_ok st atts ks iss c n t o k nd ln rn :
  tinv st atts ks iss -> In (c, n) atts -> steady_name U (c, n) ->
  (forall a, evidence U a k = if same_att U (c, n) a && tells o t then Some t else None) ->
  (tells o t = true \/ t = ST_UNKNOWN) ->
  exists st', (match st_lookup U (ts_table st) (cat_prefix c ++ n) with
            | Some al =>
                let s := hget (ts_heap st) al in
                if symtype_eqb (sy_type s) ST_UNKNOWN then
                  match st_switch_type U (ts_heap st) (ts_table st) (sy_name s) t with
                  | Ok (h, _) => (TS h (ts_table st) (ts_issues st), None)
                  | Err e => (st, Some e)
                  end
                else if negb (symtype_eqb (sy_type s) t) && negb (is_num_type (sy_type s) && is_num_type t)
                then (type_error st nd AttCheck ln rn, None) else (st, None)
            | None => (st, Some EGeneric)
            end) = (st', None) /\
    tinv st' atts (ks ++ [k])
      (iss ++ if negb (type_eqb (inferred U ks (c, n)) ST_UNKNOWN) && clash (inferred U ks (c, n)) t
              then [Issue 2 AttCheck (t_pos (n_tok nd)) (n_tok nd) (n_tok ln) (n_tok rn)] else []).
Proof.
  intros Hi Hin Ha He Ht. destruct (tinv_lookup _ _ _ _ _ _ Hi Hin Ha) as (l & El & Hl & a & Hka & Haa & Hia & Hg).
  unfold st_lookup. rewrite (cat_key c n Ha), El. cbv zeta. rewrite Hg. cbn [sy_type sy_name att_symbol].
  rewrite type_eqb_ok, (inferred_key a (c, n)) by auto.
  destruct (type_eqb (inferred U ks (c, n)) ST_UNKNOWN) eqn:E.
  - cbn [negb andb]. rewrite app_nil_r. unfold st_switch_type, st_lookup.
    rewrite Hka, (key_lower c n Ha), El. eexists. split; [reflexivity|].
    apply type_eqb_eq in E. eapply tinv_told; eauto.
    + rewrite He, same_refl. cbn. destruct Ht as [->| ->]; [now left|].
      right. destruct (tells o ST_UNKNOWN) eqn:Et; auto. unfold tells in Et. destruct (op_class_of o); discriminate.
    + intros b Hb. rewrite He, same_other; auto.
  - rewrite clash_ok. cbn [negb andb].
    assert (Q : tinv st atts (ks ++ [k]) iss).
    { apply tinv_silent; auto. intros b Hb Hu. rewrite He. destruct (same_att U (c, n) b) eqn:Es; auto.
      apply str_eqb_eq in Es. rewrite (inferred_key _ _ ks Es), Hu in E. discriminate. }
    destruct (clash (inferred U ks (c, n)) t).
    + eexists. split; [reflexivity|]. now apply (type_error_ok _ _ _ _ _ AttCheck).
    + exists st. split; auto. now rewrite app_nil_r.
Qed.

Lemma att_check_ok st atts ks iss t i r lnd rnd o a b :
  tinv st atts ks iss ->
  abs_operand (erase lnd) = Some a -> abs_operand (erase rnd) = Some b -> typed (erase lnd) -> typed (erase rnd) ->
  all_in a atts -> all_in b atts ->
  is_oatt a || is_oatt b = true -> ill_typed o a b = false -> cmp_class o = true ->
  exists st', att_check U st (Node COp t i r [lnd; rnd]) = (st', None) /\
    tinv st' atts (ks ++ [(o, a, b)])
      (iss ++ if doubtful (inferred U ks) o a b
              then [Issue 2 AttCheck (t_pos t) t (n_tok lnd) (n_tok rnd)] else []).
Proof.
  intros Hi Ha Hb Ta Tb Ia Ib Hat Hw Hcl.
  destruct (operand_view _ _ Ha Ta) as (La & _ & _ & _ & _ & Lc & Ln & _).
  destruct (operand_view _ _ Hb Tb) as (Ra & _ & _ & _ & _ & Rc & Rn & _).
  unfold att_check. cbn [n_left n_right].
  change (n_left (Node COp t i r [lnd; rnd])) with (Some lnd).
  change (n_right (Node COp t i r [lnd; rnd])) with (Some rnd). cbn iota.
  rewrite La, Ra.
  assert (Dc : op_class_of o = Ineq \/ op_class_of o = Equality).
  { unfold cmp_class in Hcl. destruct (op_class_of o); auto; discriminate. }
  assert (Tell : forall x u, const_type x = Some u -> is_oatt x = false ->
     (ill_typed o x (OAtt CatUser []) = false) -> tells o u = true \/ u = ST_UNKNOWN).
  { intros x u Hx Ho Hil. unfold ill_typed, tells in *. destruct x as [[]| |]; cbn in *; try discriminate; injection Hx as <-;
    destruct Dc as [Dc|Dc]; rewrite Dc in *; try discriminate; auto. }
  assert (Doubt : doubtful (inferred U ks) o a b =
    match a, b with
      | OAtt c n, OAtt d m => clash (inferred U ks (c, n)) (inferred U ks (d, m))
      | OAtt c n, x | x, OAtt c n =>
          match const_type x with
          | Some t => negb (type_eqb (inferred U ks (c, n)) ST_UNKNOWN) && clash (inferred U ks (c, n)) t
          | None => false
          end
      | _, _ => false
      end).
  { unfold doubtful. destruct Dc as [-> | ->]; reflexivity. }
  destruct (is_oatt a) eqn:Oa; destruct (is_oatt b) eqn:Ob; cbn [andb orb] in *; try discriminate.
  - destruct a as [| |c n]; try discriminate. destruct b as [| |d m]; try discriminate.
    rewrite (Ln c n), (Rn d m) by auto.
    destruct (Ia c n eq_refl) as [I1 A1]. destruct (Ib d m eq_refl) as [I2 A2].
    destruct (tinv_lookup _ _ _ _ _ _ Hi I1 A1) as (l1 & E1 & L1 & x1 & K1 & _ & _ & G1).
    destruct (tinv_lookup _ _ _ _ _ _ Hi I2 A2) as (l2 & E2 & L2 & x2 & K2 & _ & _ & G2).
    unfold st_lookup. rewrite (cat_key c n A1), (cat_key d m A2), E1, E2. cbv zeta. rewrite G1, G2.
    cbn [sy_type att_symbol]. rewrite clash_ok, (inferred_key x1 (c, n)), (inferred_key x2 (d, m)) by auto.
    rewrite Doubt.
    assert (Q : tinv st atts (ks ++ [(o, OAtt c n, OAtt d m)]) iss) by (apply tinv_silent; auto).
    destruct (clash _ _).
    + eexists. split; [reflexivity|]. apply (type_error_ok _ _ _ _ (Node COp t i r [lnd; rnd]) AttCheck); auto.
    + eexists. split; [reflexivity|]. now rewrite app_nil_r.
  - destruct a as [| |c n]; try discriminate. rewrite (Ln c n) by auto. cbn iota.
    destruct (Ia c n eq_refl) as [I1 A1].
    destruct (const_type b) as [u|] eqn:Eu; [|destruct b as [[]| |]; discriminate].
    rewrite (Rc u eq_refl).
    replace (doubtful (inferred U ks) o (OAtt c n) b) with
      (negb (type_eqb (inferred U ks (c, n)) ST_UNKNOWN) && clash (inferred U ks (c, n)) u)
      by (rewrite Doubt; destruct b as [[]| |]; try discriminate; injection Eu as <-; reflexivity).
    eapply (att_const_ok st atts ks iss c n u o (o, OAtt c n, b) (Node COp t i r [lnd; rnd]) lnd rnd); auto.
    + intros x. rewrite evidence_left by auto. now rewrite Eu.
    + apply (Tell b u Eu Ob). revert Hw. unfold ill_typed. destruct Dc as [Dc|Dc]; rewrite Dc; cbn [kind_of];
      destruct (kind_of b); auto.
  - destruct b as [| |c n]; try discriminate. rewrite (Rn c n) by auto. cbn iota.
    destruct (Ib c n eq_refl) as [I1 A1].
    destruct (const_type a) as [u|] eqn:Eu; [|destruct a as [[]| |]; discriminate].
    rewrite (Lc u eq_refl).
    replace (doubtful (inferred U ks) o a (OAtt c n)) with
      (negb (type_eqb (inferred U ks (c, n)) ST_UNKNOWN) && clash (inferred U ks (c, n)) u)
      by (rewrite Doubt; destruct a as [[]| |]; try discriminate; injection Eu as <-; reflexivity).
    eapply (att_const_ok st atts ks iss c n u o (o, a, OAtt c n) (Node COp t i r [lnd; rnd]) lnd rnd); auto.
    + intros x. rewrite evidence_right by auto. now rewrite Eu.
    + apply (Tell a u Eu Oa). revert Hw. unfold ill_typed. destruct Dc as [Dc|Dc]; rewrite Dc; cbn [kind_of];
      destruct (kind_of a); auto.
Qed.

Lemma doubtful_const T o a b : is_oatt a || is_oatt b = false -> doubtful T o a b = false.
Proof.
  unfold doubtful. destruct a, b; try discriminate; intros _; destruct (op_class_of o); auto.
Qed.
Lemma evidence_const o a b x : is_oatt a || is_oatt b = false -> evidence U x (o, a, b) = None.
Proof. destruct a, b; try discriminate; reflexivity. Qed.
Lemma evidence_class o a b x : cmp_class o = false -> evidence U x (o, a, b) = None.
Proof.
  unfold cmp_class, evidence, told, tells. destruct (op_class_of o); try discriminate; intros _;
  destruct a, b; cbn; rewrite ?andb_false_r; try reflexivity;
  try (destruct a; cbn; rewrite ?andb_false_r; reflexivity); destruct a0; cbn; rewrite ?andb_false_r; reflexivity.
Qed.
Lemma evidence_ill o a b x : ill_typed o a b = true -> evidence U x (o, a, b) = None.
Proof.
  intros H. destruct (is_oatt a || is_oatt b) eqn:E; [|now apply evidence_const].
  destruct (cmp_class o) eqn:C; [|now apply evidence_class].
  unfold cmp_class in C. unfold ill_typed in H. unfold evidence, told, tells.
  destruct (op_class_of o); try discriminate; destruct a as [[]| |], b as [[]| |]; try discriminate; cbn;
  rewrite ?andb_false_r; reflexivity.
Qed.

Lemma op_node_ok st atts ks iss t i r lnd rnd o a b :
  tinv st atts ks iss -> t_val t = TStr (cmp_str o) ->
  abs_operand (erase lnd) = Some a -> abs_operand (erase rnd) = Some b -> typed (erase lnd) -> typed (erase rnd) ->
  all_in a atts -> all_in b atts ->
  exists st', op_node U st (Node COp t i r [lnd; rnd]) = (st', None) /\
    tinv st' atts (ks ++ [(o, a, b)]) (iss ++ issue_of U ks (Comp o a b t (n_tok lnd) (n_tok rnd))).
Proof.
  intros Hi Ht Ha Hb Ta Tb Ia Ib.
  pose proof (att_check_ok st atts ks iss t i r lnd rnd o a b Hi Ha Hb Ta Tb Ia Ib) as AC.
  destruct (operand_view _ _ Ha Ta) as (La & Ls & Lu & Li & Lt & _ & _ & _).
  destruct (operand_view _ _ Hb Tb) as (Ra & Rs & Ru & Ri & Rt & _ & _ & _).
  pose proof (evidence_ill o a b) as EI.
  pose proof (doubtful_const (inferred U ks) o a b) as DC. pose proof (fun x => evidence_const o a b x) as EC.
  pose proof (fun x => evidence_class o a b x) as EK.
  unfold issue_of. cbn [k_op k_left k_right k_tok k_ltok k_rtok].
  set (nd := Node COp t i r [lnd; rnd]) in *.
  assert (Err : forall ch, ch <> AttCheck -> ill_typed o a b = true ->
    tinv (type_error st nd ch lnd rnd) atts (ks ++ [(o, a, b)]) (iss ++ [Issue 3 ch (t_pos t) t (n_tok lnd) (n_tok rnd)])).
  { intros ch Hch Hil. pose proof (type_error_ok st atts (ks ++ [(o, a, b)]) iss nd ch lnd rnd) as Q.
    destruct ch; try congruence; apply Q; apply tinv_silent; auto. }
  assert (Quiet : is_oatt a || is_oatt b = false \/ cmp_class o = false -> ill_typed o a b = false ->
    doubtful (inferred U ks) o a b = false -> tinv st atts (ks ++ [(o, a, b)]) (iss ++ [])).
  { intros Hc Hil Hd. rewrite app_nil_r. apply tinv_silent; auto. intros x _ _. destruct Hc; auto. }
  assert (Case : op_node U st nd =
    match op_class_of o with Ineq => num_check U st nd | Equality => eq_check U st nd
      | Member => in_check st nd | Subset => subset_check st nd end).
  { unfold op_node. change (n_tok nd) with t. rewrite Ht. destruct o; reflexivity. }
  rewrite Case. clear Case.
  assert (Hcls : class_check o = match op_class_of o with Ineq => NumCheck | Equality => EqCheck
     | Member => InCheck | Subset => SubsetCheck end) by reflexivity.
  unfold cmp_class in *. rewrite Hcls. clear Hcls.
  unfold num_check, eq_check, in_check, subset_check.
  change (n_left nd) with (Some lnd). change (n_right nd) with (Some rnd). cbn iota.
  assert (Hor : forall A (x y : A), (if is_int rnd then x else if is_float rnd then x else y) =
    if is_int rnd || is_float rnd then x else y) by (intros; destruct (is_int rnd), (is_float rnd); auto).
  rewrite Hor. clear Hor. rewrite Ri, La, Ls, Lu, Lt, Ra, Rs, Ru, Rt.
  unfold ill_typed in *.
  destruct (op_class_of o) eqn:Eo;
  (assert (Dn : match op_class_of o with Ineq | Equality => true | _ => false end = false ->
     doubtful (inferred U ks) o a b = false) by (unfold doubtful; rewrite Eo; congruence); rewrite Eo in Dn);
  destruct a as [[]| |], b as [[]| |]; cbn in *;
  try (eexists; split; [reflexivity|]; apply Err; [discriminate|reflexivity]);
  try (apply AC; reflexivity);
  try (rewrite DC by reflexivity; eexists; split; [reflexivity|]; apply Quiet; auto);
  try (rewrite Dn by reflexivity; eexists; split; [reflexivity|]; apply Quiet; auto).
Qed.

(** ** Whole trees *)

Lemma scan_unfold st c t i r ks :
  scan_tree U st (Node c t i r ks) =
  let '(st1, e) :=
    (fix go (st : tstate) (l : list ast) : tout :=
       match l with
       | [] => (st, None)
       | k :: rest =>
           if skipped k then go st rest
           else let '(st', e) := scan_tree U st k in
                match e with Some x => (st', Some x) | None => go st' rest end
       end) st ks in
  match e with
  | Some x => (st1, Some x)
  | None =>
      if is_att_cls c then att_node U st1 (Node c t i r ks)
      else match c with COp => op_node U st1 (Node c t i r ks) | _ => (st1, None) end
  end.
Proof. reflexivity. Qed.

(** Scanning a child that may be skipped. *)
Definition scan_kid (st : tstate) (n : ast) : tout := if skipped n then (st, None) else scan_tree U st n.
Lemma scan_two st c t i r k1 k2 :
  scan_tree U st (Node c t i r [k1; k2]) =
  match scan_kid st k1 with
  | (st1, Some x) => (st1, Some x)
  | (st1, None) =>
      match scan_kid st1 k2 with
      | (st2, Some x) => (st2, Some x)
      | (st2, None) =>
          if is_att_cls c then att_node U st2 (Node c t i r [k1; k2])
          else match c with COp => op_node U st2 (Node c t i r [k1; k2]) | _ => (st2, None) end
      end
  end.
Proof.
  rewrite scan_unfold. unfold scan_kid. destruct (skipped k1), (skipped k2); try reflexivity;
  repeat (destruct (scan_tree U _ _) as [? [?|]]; try reflexivity).
Qed.
Lemma scan_one st c t i r k1 :
  scan_tree U st (Node c t i r [k1]) =
  match scan_kid st k1 with
  | (st1, Some x) => (st1, Some x)
  | (st1, None) =>
      if is_att_cls c then att_node U st1 (Node c t i r [k1])
      else match c with COp => op_node U st1 (Node c t i r [k1]) | _ => (st1, None) end
  end.
Proof.
  rewrite scan_unfold. unfold scan_kid. destruct (skipped k1); try reflexivity;
  repeat (destruct (scan_tree U _ _) as [? [?|]]; try reflexivity).
Qed.

(** What has been inferred is about attributes met already. *)
Definition known_only (atts : list (cat * str)) (ks : list (cmp * operand * operand)) : Prop :=
  forall a, inferred U ks a = ST_UNKNOWN \/ mem (att_key U a) (map (att_key U) atts) = true.

Definition psteady (l : list (cat * str)) : Prop := Forall (steady_name U) l.

Lemma tinv_att st atts ks iss c t i r k n :
  tinv st atts ks iss -> known_only atts ks ->
  abs_cat c = Some k -> t_val t = TStr n -> t_type t = cat_type k -> steady_name U (k, n) ->
  exists st', att_node U st (Node c t i r []) = (st', None) /\ tinv st' (atts ++ [(k, n)]) ks iss /\
    known_only (atts ++ [(k, n)]) ks.
Proof.
  intros Hi Ho Hc Hv Ht Ha.
  assert (Kn : known_only (atts ++ [(k, n)]) ks).
  { intros a. destruct (Ho a) as [->|H]; auto. right. apply mem_in. apply mem_in in H. rewrite map_app.
    apply in_or_app. auto. }
  (* either the key is new, and nothing is known, or it is there already *)
  destruct (mem (att_key U (k, n)) (map (att_key U) atts)) eqn:E.
  - assert (In_t : exists l, assoc (att_key U (k, n)) (ts_table st) = Some l).
    { destruct Hi as [K _ _]. apply mem_in in E. destruct (assoc (att_key U (k, n)) (ts_table st)) eqn:E'; eauto.
      apply assoc_none in E'. rewrite K, firsts_in in E'. cbn in E'. tauto. }
    destruct In_t as [l El].
    destruct Hi as [K S I]. unfold att_node. cbn [n_tok]. rewrite Hv, Ht, (key_new k n).
    unfold halloc, st_define. rewrite hget_new. cbn [sy_name]. rewrite (key_lower k n Ha), El.
    eexists. split; [reflexivity|]. split; auto. split; cbn [ts_table ts_heap ts_issues]; auto.
    + rewrite map_app. change (map (att_key U) [(k, n)]) with [att_key U (k, n)]. rewrite firsts_snoc, <- K. cbn [app]. rewrite E. now rewrite app_nil_r.
    + intros q l' Hq. destruct (S _ _ Hq) as (Hl & a & H1 & H2 & H3 & H4). split; [rewrite app_length; cbn; lia|].
      exists a. rewrite hget_app by auto. repeat split; auto. apply in_or_app. auto.
  - assert (Hu : inferred U ks (k, n) = ST_UNKNOWN) by (destruct (Ho (k, n)) as [H|H]; congruence).
    destruct (att_node_ok st atts ks iss c t i r [] k n Hi Hc Hv Ht Ha (or_introl Hu)) as (st' & E1 & E2).
    eauto.
Qed.

Definition cat_type_class c k : abs_cat c = Some k -> class_type c = Some (cat_type k).
Proof. destruct c; cbn; try discriminate; intros [= <-]; reflexivity. Qed.

(** An operand. *)
Lemma scan_operand st atts ks iss nd o :
  tinv st atts ks iss -> known_only atts ks -> abs_operand (erase nd) = Some o -> typed (erase nd) ->
  psteady (operand_atts o) ->
  exists st', scan_kid st nd = (st', None) /\ tinv st' (atts ++ operand_atts o) ks iss /\
    known_only (atts ++ operand_atts o) ks.
Proof.
  intros Hi Ho Ha Ht Hp. destruct nd as [c t i r kids]. cbn [erase] in *. apply typed_inv in Ht as [Ht _].
  unfold scan_kid.
  apply abs_operand_inv in Ha as [(e & l & -> & _ & ->)|[(k & s & Hc & Hv & Hk & ->)|(a & Ha & ->)]].
  - cbn [operand_atts]. rewrite app_nil_r. exists st. auto.
  - assert (skipped (Node c t i r kids) = false) as -> by (destruct c; try discriminate; reflexivity).
    destruct kids; [|discriminate]. rewrite scan_unfold, (att_cls _ _ Hc).
    inversion Hp as [|? ? Hp1 _]; subst.
    destruct (tinv_att st atts ks iss c t i r k s) as (st' & E & H); eauto.
    apply Ht. now apply cat_type_class.
  - destruct (abs_atom_leaf _ _ _ _ Ha) as [_ D]. cbn [operand_atts]. rewrite app_nil_r. exists st.
    destruct D as [->|[->|[->| ->]]]; auto.
Qed.

Lemma known_cmp atts ks o a b : known_only atts ks ->
  (forall c n, a = OAtt c n -> In (c, n) atts) -> (forall c n, b = OAtt c n -> In (c, n) atts) ->
  known_only atts (ks ++ [(o, a, b)]).
Proof.
  intros Ho Ia Ib x. destruct (Ho x) as [H|H]; auto. rewrite inferred_snoc, H. cbn [type_eqb].
  destruct (evidence U x (o, a, b)) as [t|] eqn:E; auto. right. apply mem_in.
  apply evidence_inv in E as [E|E]; apply told_inv in E as (c & n & -> & _ & E & _);
  apply str_eqb_eq in E; rewrite <- E; apply in_map; [now apply Ia|now apply Ib].
Qed.

Lemma issues_after_app l1 : forall l2 before,
  issues_after U before (l1 ++ l2) = issues_after U before l1 ++ issues_after U (before ++ map abstract l1) l2.
Proof.
  induction l1 as [|k l1 IH]; intros l2 before; cbn [app issues_after map].
  - now rewrite app_nil_r.
  - rewrite IH. rewrite <- !app_assoc. reflexivity.
Qed.

Lemma scan_pol nd : forall p st atts ks iss,
  tinv st atts ks iss -> known_only atts ks -> abs (erase nd) = Some p -> typed (erase nd) -> psteady (attributes p) ->
  exists st', scan_tree U st nd = (st', None) /\
    tinv st' (atts ++ attributes p) (ks ++ map abstract (comparisons (erase nd)))
         (iss ++ issues_after U ks (comparisons (erase nd))) /\
    known_only (atts ++ attributes p) (ks ++ map abstract (comparisons (erase nd))).
Proof.
  induction nd as [c t i r kids IH] using ast_ind'. intros p st atts ks iss Hi Ho Ha Ht Hp.
  cbn [erase] in *. pose proof Ht as Ht'. apply typed_inv in Ht' as [Htt Htk].
  assert (Kid : forall k q, In k kids -> abs (erase k) = Some q -> typed (erase k) -> psteady (attributes q) ->
    forall st atts ks iss, tinv st atts ks iss -> known_only atts ks ->
    exists st', scan_kid st k = (st', None) /\
    tinv st' (atts ++ attributes q) (ks ++ map abstract (comparisons (erase k)))
         (iss ++ issues_after U ks (comparisons (erase k))) /\
    known_only (atts ++ attributes q) (ks ++ map abstract (comparisons (erase k)))).
  { intros k q Hk Hq Hty Hpq st1 atts1 ks1 iss1 Hi1 Ho1. unfold scan_kid.
    destruct (skipped k) eqn:E; [|rewrite Forall_forall in IH; apply (IH k Hk); auto].
    destruct k as [c' t' i' r' ks']. cbn [erase] in *. exists st1.
    apply abs_inv in Hq as [(-> & Hn & x & Hv & ->)|[(k' & s & Hc & _)|[(-> & _)|[(-> & _)|(-> & _)]]]];
      try discriminate E; [|destruct c'; discriminate].
    cbn [attributes comparisons]. destruct ks'; [|discriminate]. cbn. rewrite !app_nil_r. auto. }
  apply abs_inv in Ha as [(-> & Hk & x & Hv & ->)|[(k & s & Hc & Hv & Hk & ->)|[(-> & k & q & Hk & Hq & ->)|
      [(-> & l & rr & o & a & b & Hk & Hv & Hl & Hr & ->)|(-> & l & rr & a & b & Hk & Hl & Hr & Hv)]]]].
  - destruct kids; [|discriminate]. exists st. cbn. rewrite !app_nil_r. auto.
  - destruct kids; [|discriminate]. rewrite scan_unfold, (att_cls _ _ Hc). cbn [attributes].
    inversion Hp as [|? ? Hp1 _]; subst.
    destruct (tinv_att st atts ks iss c t i r k s) as (st' & E & H); auto.
    { apply Htt. now apply cat_type_class. }
    exists st'. split; auto.
    replace (comparisons (PT c t (map erase []))) with (@nil comparison) by (destruct c; try discriminate; reflexivity).
    cbn. rewrite !app_nil_r. auto.
  - destruct kids as [|k1 [|? ?]]; try discriminate. injection Hk as <-.
    inversion Htk as [|? ? T1 _]; subst.
    rewrite scan_one. destruct (Kid k1 q (or_introl eq_refl) Hq T1 Hp _ _ _ _ Hi Ho) as (st1 & E & H).
    rewrite E. cbn [is_att_cls]. exists st1. auto.
  - destruct kids as [|k1 [|k2 [|? ?]]]; try discriminate. injection Hk as <- <-. cbn [map] in Htk.
    inversion Htk as [|? ? T1 Htk2]; subst. inversion Htk2 as [|? ? T2 _]; subst.
    cbn [attributes] in *. apply Forall_app in Hp as [P1 P2].
    rewrite scan_two.
    destruct (scan_operand st atts ks iss k1 a Hi Ho Hl T1 P1) as (st1 & E1 & I1 & O1). rewrite E1.
    destruct (scan_operand st1 _ ks iss k2 b I1 O1 Hr T2 P2) as (st2 & E2 & I2 & O2). rewrite E2.
    cbn [is_att_cls map]. rewrite <- app_assoc in I2, O2.
    assert (Ia : all_in a (atts ++ operand_atts a ++ operand_atts b)).
    { intros c n ->. cbn. split; [apply in_or_app; right; cbn; auto|]. now inversion P1. }
    assert (Ib : all_in b (atts ++ operand_atts a ++ operand_atts b)).
    { intros c n ->. cbn. split; [apply in_or_app; right; apply in_or_app; right; cbn; auto|]. now inversion P2. }
    destruct (op_node_ok st2 _ ks iss t i r k1 k2 o a b I2 Hv Hl Hr T1 T2 Ia Ib) as (st3 & E3 & I3).
    exists st3. split; [exact E3|].
    assert (Ec : comparisons (PT COp t [erase k1; erase k2]) = [Comp o a b t (n_tok k1) (n_tok k2)]).
    { cbn [comparisons]. rewrite Hv, Hl, Hr. destruct k1, k2. destruct o; reflexivity. }
    rewrite Ec. cbn [map abstract issues_after]. rewrite app_nil_r. split; [exact I3|].
    apply known_cmp; auto; intros c n E; [apply (Ia c n E)|apply (Ib c n E)].
  - destruct kids as [|k1 [|k2 [|? ?]]]; try discriminate. injection Hk as <- <-. cbn [map] in Htk.
    inversion Htk as [|? ? T1 Htk2]; subst. inversion Htk2 as [|? ? T2 _]; subst.
    assert (Hat : attributes p = attributes a ++ attributes b) by (destruct Hv as [[_ ->]|[_ ->]]; reflexivity).
    rewrite Hat in *. apply Forall_app in Hp as [P1 P2].
    rewrite scan_two.
    destruct (Kid k1 a (or_introl eq_refl) Hl T1 P1 _ _ _ _ Hi Ho) as (st1 & E1 & I1 & O1). rewrite E1.
    destruct (Kid k2 b (or_intror (or_introl eq_refl)) Hr T2 P2 _ _ _ _ I1 O1) as (st2 & E2 & I2 & O2). rewrite E2.
    cbn [is_att_cls map]. exists st2. split; auto.
    change (comparisons (PT CBoolOp t [erase k1; erase k2])) with (comparisons (erase k1) ++ comparisons (erase k2)).
    rewrite map_app, issues_after_app, !app_assoc. auto.
Qed.

(** Whether names are steady can be decided. *)
Lemma str_dec (x y : str) : {x = y} + {x <> y}.
Proof. apply list_eq_dec, N.eq_dec. Qed.
Lemma steady_dec (l : list (cat * str)) : steady U l \/ exists a, In a l /\ ~ steady_name U a.
Proof.
  induction l as [|a l IH]; [left; intros a []|].
  destruct (str_dec (py_lower U (cat_word (fst a) ++ snd a)) (att_key U a)) as [E|E].
  - destruct (str_dec (py_lower U (cat_word (fst a) ++ py_lower U (snd a))) (att_key U a)) as [F|F].
    + destruct IH as [IH|(b & Hb & Nb)].
      * left. intros b [<-|Hb]; [|now apply IH]. intros n [->| ->]; assumption.
      * right. exists b. split; [now right|exact Nb].
    + right. exists a. split; [now left|]. intros S. apply F, S. now right.
  - right. exists a. split; [now left|]. intros S. apply E, S. now left.
Qed.

End WithUnicode.
