(** * NamedProps: a decision depends on the attributes that the policy names (C123) *)

From Coq Require Import NArith ZArith List Bool String Lia Permutation.
From Coq Require Import Floats.SpecFloat.
From Verif Require Import PyBase PyNum Lexer LexSpec LexProofs LexProofs2 LexProps Values Ast Parser Grammar
  ParseProofs ParseProofs2 Syntax PrintProofs ParseProps AbsProofs Symbols Interp EvalProofs EvalProofs2
  SymbolProps TypeCheck TypeSpec TypeProofs TypeProps CodecSpec CodecProofs CodecProps EvalSpec EvalProps EndProps TreeProps.
Import ListNotations.
Open Scope Z_scope.

(** ** Trees of any origin *)

(** [s] is the name under which evaluation looks up an attribute node of [a]. *)
Definition names (a : ast) (s : str) : Prop :=
  exists n, In n (subtrees a) /\ is_att_cls (n_cls n) = true /\ att_to_symbol_name (n_cls n) (n_tok n) = Ok s.

(** The tables give the same Symbol objects for the names in [a]. *)
Definition same_for (U : unicode) (a : ast) (tb tb' : option table) : Prop :=
  forall s, names a s -> st_lookup U (table_of tb) s = st_lookup U (table_of tb') s.

(** Several evaluations of one Interpreter, each with the Symbol objects as they are then, a table and a level. *)
Fixpoint runs (U : unicode) (it : interp) (l : list (heap * option table * option Z)) : interp * list (res (option rval)) :=
  match l with
  | [] => (it, [])
  | (h, tb, level) :: r => let '(it1, x) := evaluate U h it tb level in let '(it2, xs) := runs U it1 r in (it2, x :: xs)
  end.

Section Lookup.
Variables (U : unicode) (h : heap) (tb tb' : table).

Lemma eval_same : forall a, (forall s, names a s -> st_lookup U tb s = st_lookup U tb' s) ->
  eval_node U h tb a = eval_node U h tb' a.
Proof.
  induction a as [c t i r ks IH] using ast_ind'. intros H. rewrite !eval_node_unfold.
  assert (K : eval_kids U h tb ks = eval_kids U h tb' ks).
  { assert (H' : forall s k, In k ks -> names k s -> st_lookup U tb s = st_lookup U tb' s).
    { intros s k Hk (n & Hn & Hc & Ha). apply H. exists n. repeat split; auto. cbn [subtrees n_kids]. right.
      apply in_flat_map. eauto. }
    clear H. induction IH as [|k ks Hk _ IHks]; [reflexivity|]. rewrite !eval_kids_cons. unfold visit.
    rewrite Hk by (intros s Hs; apply (H' s k); auto; now left).
    rewrite IHks by (intros s k' Hk'; apply H'; now right). reflexivity. }
  rewrite K. destruct (eval_kids U h tb' ks) as [[ks' ws] [e|]]; auto.
  assert (S : eval_self U h tb c t r ks' = eval_self U h tb' c t r ks'); [|now rewrite S].
  assert (A : forall s, is_att_cls c = true -> att_to_symbol_name c t = Ok s -> st_lookup U tb s = st_lookup U tb' s).
  { intros s Hc Hs. apply H. exists (Node c t i r ks). repeat split; auto. cbn [subtrees n_kids]. now left. }
  assert (B : is_att_cls c = true -> eval_att U h tb c t r = eval_att U h tb' c t r).
  { intros Hc. unfold eval_att. destruct (att_to_symbol_name c t) as [s|e] eqn:Es; auto. now rewrite (A s Hc eq_refl). }
  destruct c; cbn [eval_self]; auto; reflexivity.
Qed.
End Lookup.

Lemma skeleton_nodes a : map (fun n => (n_cls n, n_tok n)) (subtrees (skeleton a)) = map (fun n => (n_cls n, n_tok n)) (subtrees a).
Proof.
  induction a as [c t i r ks IH] using ast_ind'. cbn [skeleton subtrees n_kids map n_cls n_tok]. f_equal.
  induction IH as [|k ks H _ IHk]; [reflexivity|]. cbn [map flat_map]. now rewrite !map_app, H, IHk.
Qed.
Lemma names_nodes a s : names a s <->
  exists c t, In (c, t) (map (fun n => (n_cls n, n_tok n)) (subtrees a)) /\ is_att_cls c = true /\ att_to_symbol_name c t = Ok s.
Proof.
  split.
  - intros (n & Hn & Hc & Ha). exists (n_cls n), (n_tok n). repeat split; auto. apply in_map_iff. eauto.
  - intros (c & t & Hi & Hc & Ha). apply in_map_iff in Hi as (n & [= <- <-] & Hn). exists n. auto.
Qed.
Lemma names_skeleton a b s : skeleton a = skeleton b -> names a s <-> names b s.
Proof. intros E. rewrite !names_nodes. rewrite <- (skeleton_nodes a), <- (skeleton_nodes b), E. tauto. Qed.

Lemma evaluate_same U h it tb tb' level : same_for U (i_ast it) tb tb' ->
  evaluate U h it tb level = evaluate U h it tb' level.
Proof.
  intros H. unfold evaluate. change (match tb with Some t => t | None => [] end) with (table_of tb).
  change (match tb' with Some t => t | None => [] end) with (table_of tb').
  now rewrite (eval_same U h (table_of tb) (table_of tb') (i_ast it) H).
Qed.

(** Whatever tree is evaluated, parsed, decoded or evaluated before: results, exceptions, warnings
    with their positions, and the tree left behind are the same if the tables have the same objects
    for the names in the tree. *)
Theorem C123_same (U : unicode) (it : interp) (l l' : list (heap * option table * option Z)) :
  Forall2 (fun x y => fst (fst x) = fst (fst y) /\ snd x = snd y /\
                      same_for U (i_ast it) (snd (fst x)) (snd (fst y))) l l' ->
  runs U it l = runs U it l'.
Proof.
  set (a := i_ast it). assert (Ha : skeleton a = skeleton (i_ast it)) by reflexivity. clearbody a. intros F.
  revert it Ha. induction F as [|[[h tb] level] [[h' tb'] level'] l l' (Hh & Hl & Hs) F IH]; intros it Ha; [reflexivity|].
  cbn [fst snd] in *. subst h' level'. cbn [runs]. rewrite (evaluate_same U h it tb tb' level).
  - pose proof (evaluate_frame U h it tb' level) as [S _]. destruct (evaluate U h it tb' level) as [it1 x]. cbn [fst] in S.
    rewrite (IH it1); [reflexivity|congruence].
  - intros s Hn. apply Hs. now apply (names_skeleton (i_ast it) a s).
Qed.

(** ** The attributes of a text *)

(** The key under which the attribute of a token is found. *)
Definition token_cat (t : token) : option cat :=
  match t_type t with
  | USR_ATT => Some CatUser | OBJ_ATT => Some CatObject | ENV_ATT => Some CatEnv
  | ADM_ATT => Some CatAdmin | CON_ATT => Some CatConnect | _ => None
  end.
Definition token_keys (U : unicode) (t : token) : list str :=
  match token_cat t, t_val t with Some c, TStr s => [py_lower U (cat_word c ++ s)] | _, _ => [] end.
(** A table without the entries that are not for one of the tokens. *)
Definition only (U : unicode) (ts : list token) (tb : table) : table :=
  filter (fun x => existsb (str_eqb (fst x)) (flat_map (token_keys U) ts)) tb.

(** Every attribute node of a parsed tree has its category. *)
Inductive known : ptree -> Prop := known_pt c t ks : c <> CAtt -> Forall known ks -> known (PT c t ks).
Lemma known_att u a : g_att u a -> known a.
Proof. destruct 1; constructor; auto; discriminate. Qed.
Lemma known_atomic u a : g_atomic u a -> known a.
Proof. destruct 1; constructor; auto; discriminate. Qed.
Lemma known_setval u l : g_setval u l -> Forall known l.
Proof. induction 1 as [u a H|u a c v l H Hc Hl IH]; constructor; auto; eapply known_atomic; eauto. Qed.
Lemma known_var u a : g_var u a -> known a.
Proof.
  destruct 1 as [u a H|u a H|u a H]; [eapply known_atomic; eauto| |eapply known_att; eauto].
  destruct H as [lb rb Hl Hr|lb u l rb Hl Hs Hr]; constructor; auto; try discriminate. eapply known_setval; eauto.
Qed.
Lemma known_boolvar u a : g_boolvar u a -> known a.
Proof. destruct 1 as [t H|u a H]; [constructor; auto; discriminate|eapply known_att; eauto]. Qed.
Lemma known_g :
  (forall u a, g_exp u a -> known a) /\ (forall u a, g_term u a -> known a) /\ (forall u a, g_policy u a -> known a).
Proof.
  apply g_mind; auto.
  - intros u l o v r Hl Ho Hr. constructor; [discriminate|]. constructor; [eapply known_var; eauto|].
    constructor; [eapply known_var; eauto|auto].
  - intros u b H. eapply known_boolvar; eauto.
  - intros t u b Ht H. constructor; [discriminate|]. constructor; [eapply known_boolvar; eauto|auto].
  - intros t lp u p rp Ht Hl Hp IH Hr. constructor; [discriminate|]. auto.
  - intros u l a v r Hl IHl Ha Hr IHr. constructor; [discriminate|]. auto.
  - intros u l a v r Hl IHl Ha Hr IHr. constructor; [discriminate|]. auto.
Qed.
Lemma known_sub a : known (erase a) -> forall n, In n (subtrees a) -> n_cls n <> CAtt.
Proof.
  induction a as [c t i r ks IH] using ast_ind'. cbn [erase]. intros H n Hn. inversion H as [? ? ? Hc Hk]; subst.
  cbn [subtrees n_kids] in Hn. destruct Hn as [<-|Hn]; auto. apply in_flat_map in Hn as (k & Hi & Hn).
  rewrite Forall_forall in IH, Hk. apply (IH k Hi); auto. apply Hk. apply in_map_iff. eauto.
Qed.
Lemma typed_sub a : typed (erase a) -> forall n ty, In n (subtrees a) -> class_type (n_cls n) = Some ty -> t_type (n_tok n) = ty.
Proof.
  induction a as [c t i r ks IH] using ast_ind'. cbn [erase]. intros H n ty Hn. apply typed_inv in H as [Hc Hk].
  cbn [subtrees n_kids] in Hn. destruct Hn as [<-|Hn]; [apply Hc|]. apply in_flat_map in Hn as (k & Hi & Hn).
  rewrite Forall_forall in IH, Hk. apply (IH k Hi); auto. apply Hk. apply in_map_iff. eauto.
Qed.

Lemma assoc_filter {A} k (f : str -> bool) (l : list (str * A)) : f k = true -> assoc k (filter (fun x => f (fst x)) l) = assoc k l.
Proof.
  intros Hf. induction l as [|[k' v] r IH]; cbn [assoc filter fst]; auto. destruct (str_eqb k k') eqn:E.
  - apply str_eqb_eq in E as <-. rewrite Hf. cbn [assoc]. now rewrite str_eqb_refl.
  - destruct (f k'); auto. cbn [assoc]. now rewrite E.
Qed.

Lemma ok_inj {A} (x y : A) : Ok x = Ok y -> x = y.
Proof. congruence. Qed.
Lemma parsed_names U text last a n' l s : unicode_ok U -> parse_text U text last = Ok (a, n') ->
  tokenize U (lexer_init text) = Ok l -> names a s ->
  In (py_lower U s) (flat_map (token_keys U) (lx_atts l)).
Proof.
  intros uok Hp Hl (n & Hn & Hc & Hs).
  assert (L : lex_text U text = Ok (lx_toks l)) by (unfold lex_text; now rewrite Hl).
  destruct (C76_tokens U text last n' a (lx_toks l) uok Hp L) as [P _].
  pose proof (typed_sub a (parsed_typed _ _ _ _ _ uok Hp) n) as T.
  assert (K : n_cls n <> CAtt).
  { pose proof Hp as H0. apply C08_text_sound in H0 as (u & e & _ & _ & Hg); [|exact uok].
    apply (known_sub a); auto. now apply (proj2 (proj2 known_g)) in Hg. }
  rewrite (C05_att_list U text l uok Hl). apply in_flat_map. exists (n_tok n).
  assert (Hi : In (n_tok n) (lx_toks l)).
  { assert (X : In (n_tok n) (filter significant (lx_toks l))).
    { eapply Permutation_in; [exact P|]. apply in_map_iff. eauto. }
    now apply filter_In in X. }
  destruct n as [c t i r ks]. cbn [n_cls n_tok] in *. unfold token_keys, token_cat.
  unfold att_to_symbol_name in Hs.
  destruct c; try discriminate Hc; try congruence; rewrite (T _ Hn eq_refl); cbn [bind] in Hs;
  (destruct (t_val t) eqn:Ev; try discriminate Hs); 
  (split; [apply filter_In; split; [exact Hi|now rewrite (T _ Hn eq_refl)]|]); left; apply ok_inj in Hs; now rewrite <- Hs.
Qed.

(** It is enough to supply the attributes in the lexer's att_list: everything else can be left out
    of all tables. *)
Theorem C123_att_list (U : unicode) (text : str) (last : Z) (a : ast) (n' : Z) (l : lexer)
    (cs : list (heap * option table * option Z)) :
  unicode_ok U -> tokenize U (lexer_init text) = Ok l -> parse_text U text last = Ok (a, n') ->
  runs U (interp_new a) (map (fun c => (fst (fst c), Some (only U (lx_atts l) (table_of (snd (fst c)))), snd c)) cs) =
  runs U (interp_new a) cs.
Proof.
  intros uok Hl Hp. apply C123_same. induction cs as [|[[h tb] level] cs IH]; constructor; auto. cbn [fst snd].
  split; [reflexivity|]. split; [reflexivity|]. intros s Hs. unfold st_lookup. cbn [table_of].
  unfold only. apply (assoc_filter (py_lower U s) (fun k => existsb (str_eqb k) (flat_map (token_keys U) (lx_atts l)))).
  apply existsb_exists. exists (py_lower U s). split; [|apply str_eqb_refl]. eapply parsed_names; eauto.
Qed.

(** ** Values instead of objects *)

Lemma operand_env E E' o : (forall c n, In (c, n) (operand_atts o) -> E c n = E' c n) ->
  operand_kind E o = operand_kind E' o /\ operand_warns E o = operand_warns E' o.
Proof. destruct o as [a|l|c n]; cbn; auto. intros H. unfold att_warns. rewrite H; auto. Qed.
Lemma pol_env E E' p : (forall c n, In (c, n) (attributes p) -> E c n = E' c n) ->
  den E p = den E' p /\ faults E p = faults E' p /\ root_faults E p = root_faults E' p /\ warns E p = warns E' p.
Proof.
  assert (G : (forall c n, In (c, n) (attributes p) -> E c n = E' c n) ->
    den E p = den E' p /\ faults E p = faults E' p /\ warns E p = warns E' p).
  { induction p as [t|c n|o x y|q IH|q IH1 r IH2|q IH1 r IH2]; cbn [attributes den faults warns]; intros H; auto.
    - unfold att_warns. rewrite H by now left. auto.
    - destruct (operand_env E E' x) as [X1 X2]; [intros; apply H, in_app_iff; auto|].
      destruct (operand_env E E' y) as [Y1 Y2]; [intros; apply H, in_app_iff; auto|].
      unfold cmp_faults. now rewrite X1, X2, Y1, Y2.
    - destruct (IH H) as (D & F & W). now rewrite D, F, W.
    - destruct IH1 as (D & F & W); [intros; apply H, in_app_iff; auto|].
      destruct IH2 as (D' & F' & W'); [intros; apply H, in_app_iff; auto|]. now rewrite D, F, W, D', F', W'.
    - destruct IH1 as (D & F & W); [intros; apply H, in_app_iff; auto|].
      destruct IH2 as (D' & F' & W'); [intros; apply H, in_app_iff; auto|]. now rewrite D, F, W, D', F', W'. }
  intros H. destruct (G H) as (D & F & W). repeat split; auto. destruct p; auto.
Qed.

(** The same result, or two Symbol objects with the same type and value. *)
Definition same_result (h h' : heap) (r r' : option rval) : Prop :=
  r = r' \/ exists l l', r = Some (RSym l) /\ r' = Some (RSym l') /\
              sy_type (hget h l) = sy_type (hget h' l') /\ sy_value (hget h l) = sy_value (hget h' l').

(** A first evaluation depends only on type and value of the attributes in the policy. *)
Theorem C123_values (U : unicode) (h h' : heap) (text : str) (last : Z) (a : ast) (n' : Z) (p : pol)
    (tb tb' : option table) (level : option Z) :
  unicode_ok U -> heap_ok h -> heap_ok h' -> parse_text U text last = Ok (a, n') -> abs (erase a) = Some p ->
  (forall c n, In (c, n) (attributes p) -> env_of U h tb c n = env_of U h' tb' c n) ->
  match evaluate U h (interp_new a) tb level, evaluate U h' (interp_new a) tb' level with
  | (i, Ok r), (i', Ok r') => same_result h h' r r' /\ map w_kind (i_warnings i) = map w_kind (i_warnings i')
  | (_, Err e), (_, Err e') => is_warning e = is_warning e'
  | _, _ => False
  end.
Proof.
  intros uok Hh Hh' Hp Ha H.
  destruct (first_eval U h text last a n' tb level uok Hh Hp) as (q & Hq & S1).
  destruct (first_eval U h' text last a n' tb' level uok Hh' Hp) as (q' & Hq' & S2).
  rewrite Ha in Hq, Hq'. injection Hq as <-. injection Hq' as <-.
  destruct (pol_env _ _ _ H) as (D & F & RF & W). unfold eval_spec in S1, S2. rewrite <- D, <- F, <- RF, <- W in S2.
  destruct (evaluate U h (interp_new a) tb level) as [i1 x1], (evaluate U h' (interp_new a) tb' level) as [i2 x2].
  cbn [fst snd] in *. destruct (root_faults (env_of U h tb) p).
  { destruct S1 as (e1 & -> & H1). destruct S2 as (e2 & -> & H2). now rewrite (ierr_no_warning _ _ H1), (ierr_no_warning _ _ H2). }
  destruct S1 as (W1 & L1 & R1), S2 as (W2 & L2 & R2).
  assert (K : match x1, x2 with Ok _, Ok _ => True | Err e1, Err e2 => is_warning e1 = is_warning e2 | _, _ => False end).
  { rewrite <- W1 in W2. destruct (i_warnings i1), (i_warnings i2); try discriminate.
    - destruct L1 as [r1 ->], L2 as [r2 ->]. exact I.
    - destruct level as [z|]; [destruct (z <=? 2)|].
      + rewrite L1, L2. reflexivity.
      + destruct L1 as [r1 ->], L2 as [r2 ->]. exact I.
      + rewrite L1, L2. reflexivity. }
  destruct x1 as [r1|e1], x2 as [r2|e2]; auto. split; [|congruence].
  specialize (R1 _ eq_refl). specialize (R2 _ eq_refl). destruct (faults (env_of U h tb) p); [|left; congruence].
  destruct R1 as (c & n & l & -> & -> & K1), R2 as (c2 & n2 & l2 & [= <- <-] & -> & K2). right.
  exists l, l2. specialize (H c n (or_introl eq_refl)). unfold env_of, table_env in H. rewrite K1, K2 in H.
  cbn [option_map] in H. injection H as H1 H2. auto.
Qed.

(** Each of them is needed: when one is missing, an evaluation that returns has warned. *)
Lemma missing_warns E p c n : In (c, n) (attributes p) -> E c n = None -> In WUnknownAtt (warns E p).
Proof.
  intros Hi He. induction p as [t|d m|o x y|q IH|q IH1 r IH2|q IH1 r IH2]; cbn [attributes warns] in *; auto.
  - destruct Hi as [[= -> ->]|[]]. unfold att_warns. rewrite He. now left.
  - assert (G : forall z, In (c, n) (operand_atts z) -> In WUnknownAtt (operand_warns E z)).
    { intros [a|l|d m] Hz; cbn in Hz; try tauto. destruct Hz as [[= -> ->]|[]]. cbn. unfold att_warns. rewrite He. now left. }
    rewrite !in_app_iff. apply in_app_iff in Hi as [Hi|Hi]; auto.
  - apply in_app_iff. apply in_app_iff in Hi as [Hi|Hi]; auto.
  - apply in_app_iff. apply in_app_iff in Hi as [Hi|Hi]; auto.
Qed.
Theorem C123_needed (U : unicode) (h : heap) (text : str) (last : Z) (a : ast) (n' : Z) (p : pol) (c : cat) (n : str)
    (tb : option table) (level : option Z) (i : interp) (r : option rval) :
  unicode_ok U -> heap_ok h -> parse_text U text last = Ok (a, n') -> abs (erase a) = Some p ->
  In (c, n) (attributes p) -> st_lookup U (table_of tb) (cat_word c ++ n) = None ->
  evaluate U h (interp_new a) tb level = (i, Ok r) -> In WUnknownAtt (map w_kind (i_warnings i)).
Proof.
  intros uok Hh Hp Ha Hi Hn He. destruct (first_eval U h text last a n' tb level uok Hh Hp) as (q & Hq & S).
  rewrite Ha in Hq. injection Hq as <-. rewrite He in S. unfold eval_spec in S. cbn [fst snd] in S.
  destruct (root_faults (env_of U h tb) p); [destruct S as (e & [=] & _)|]. destruct S as (W & _). rewrite W.
  apply (missing_warns _ _ c n Hi). unfold env_of, table_env. change (cat_prefix c) with (cat_word c). now rewrite Hn.
Qed.

(** ** Names in any script (C26) *)

(** Attributes are the same if their full names have the same lower case: the policies [p] and [q]
    differ only in the spelling of such names. *)
Section Renamed.
Variable U : unicode.
Definition same_key (c : cat) (m n : str) : Prop := py_lower U (cat_word c ++ m) = py_lower U (cat_word c ++ n).
Inductive respelled_operand : operand -> operand -> Prop :=
| ro_same o : respelled_operand o o
| ro_att c m n : same_key c m n -> respelled_operand (OAtt c m) (OAtt c n).
Inductive respelled : pol -> pol -> Prop :=
| rs_const t : respelled (PConst t) (PConst t)
| rs_att c m n : same_key c m n -> respelled (PAtt c m) (PAtt c n)
| rs_cmp o l l' r r' : respelled_operand l l' -> respelled_operand r r' -> respelled (PCmp o l r) (PCmp o l' r')
| rs_not p p' : respelled p p' -> respelled (PNot p) (PNot p')
| rs_and p p' q q' : respelled p p' -> respelled q q' -> respelled (PAnd p q) (PAnd p' q')
| rs_or p p' q q' : respelled p p' -> respelled q q' -> respelled (POr p q) (POr p' q').

Lemma same_key_lookup tb c m n : same_key c m n -> st_lookup U tb (cat_prefix c ++ m) = st_lookup U tb (cat_prefix c ++ n).
Proof. unfold st_lookup, same_key. change (cat_word c) with (cat_prefix c). now intros ->. Qed.

(** No other names are the same for all tables. *)
Theorem C26_exact c m n : (forall tb, st_lookup U tb (cat_prefix c ++ m) = st_lookup U tb (cat_prefix c ++ n)) <-> same_key c m n.
Proof.
  split; [|intros H tb; now apply same_key_lookup]. intros H.
  specialize (H [(py_lower U (cat_prefix c ++ m), 0%nat)]). unfold st_lookup in H. cbn [assoc] in H.
  rewrite str_eqb_refl in H. destruct (str_eqb (py_lower U (cat_prefix c ++ n)) (py_lower U (cat_prefix c ++ m))) eqn:E; [|discriminate].
  apply str_eqb_eq in E. symmetry. exact E.
Qed.

Lemma respelled_same h tb p q : respelled p q ->
  let E := env_of U h tb in
  den E p = den E q /\ faults E p = faults E q /\ root_faults E p = root_faults E q /\ warns E p = warns E q.
Proof.
  cbn zeta. set (E := env_of U h tb).
  assert (K : forall c m n, same_key c m n -> E c m = E c n).
  { intros c m n H. unfold E, env_of, table_env. now rewrite (same_key_lookup _ c m n H). }
  assert (O : forall x y, respelled_operand x y -> operand_kind E x = operand_kind E y /\ zero_operand x = zero_operand y /\
     operand_warns E x = operand_warns E y).
  { intros x y [o|c m n H]; auto. cbn. unfold att_warns. now rewrite (K c m n H). }
  induction 1 as [t|c m n Hn|o l l' r r' Hl Hr|p p' _ (D & F & _ & W)|p p' q q' _ (D & F & _ & W) _ (D' & F' & _ & W')
    |p p' q q' _ (D & F & _ & W) _ (D' & F' & _ & W')]; auto.
  - cbn. unfold att_warns. now rewrite (K c m n Hn).
  - apply O in Hl as (K1 & Z & W), Hr as (K' & Z' & W'). cbn. unfold cmp_faults. now rewrite K1, K', Z, Z', W, W'.
  - cbn. now rewrite D, F, W.
  - cbn. now rewrite D, F, W, D', F', W'.
  - cbn. now rewrite D, F, W, D', F', W'.
Qed.

Theorem C26_names (h : heap) (text1 text2 : str) (last1 last2 : Z) (a1 a2 : ast) (n1 n2 : Z)
    (tb : option table) (level : option Z) (p1 p2 : pol) :
  unicode_ok U -> heap_ok h -> parse_text U text1 last1 = Ok (a1, n1) -> parse_text U text2 last2 = Ok (a2, n2) ->
  abs (erase a1) = Some p1 -> abs (erase a2) = Some p2 -> respelled p1 p2 ->
  alike (evaluate U h (interp_new a1) tb level) (evaluate U h (interp_new a2) tb level).
Proof.
  intros uok Hh Hp1 Hp2 Ha1 Ha2 Hr.
  destruct (first_eval U h text1 last1 a1 n1 tb level uok Hh Hp1) as (q1 & Ha1' & S1).
  destruct (first_eval U h text2 last2 a2 n2 tb level uok Hh Hp2) as (q2 & Ha2' & S2).
  rewrite Ha1 in Ha1'. rewrite Ha2 in Ha2'. injection Ha1' as <-. injection Ha2' as <-.
  destruct (respelled_same h tb p1 p2 Hr) as (D & F & RF & W). unfold alike.
  destruct (evaluate U h (interp_new a1) tb level) as [i1 x1], (evaluate U h (interp_new a2) tb level) as [i2 x2].
  unfold eval_spec in S1, S2. cbn [fst snd] in *. rewrite <- D, <- F, <- RF, <- W in S2.
  destruct (root_faults (env_of U h tb) p1).
  { destruct S1 as (e1 & -> & H1). destruct S2 as (e2 & -> & H2). now rewrite (ierr_no_warning _ _ H1), (ierr_no_warning _ _ H2). }
  destruct S1 as (W1 & L1 & R1), S2 as (W2 & L2 & R2).
  assert (K : match x1, x2 with Ok _, Ok _ => True | Err e1, Err e2 => is_warning e1 = is_warning e2 | _, _ => False end).
  { rewrite <- W1 in W2. destruct (i_warnings i1), (i_warnings i2); try discriminate.
    - destruct L1 as [r1 ->], L2 as [r2 ->]. exact I.
    - destruct level as [z|]; [destruct (z <=? 2)|].
      + rewrite L1, L2. reflexivity.
      + destruct L1 as [r1 ->], L2 as [r2 ->]. exact I.
      + rewrite L1, L2. reflexivity. }
  destruct x1 as [r1|e1], x2 as [r2|e2]; auto. split; [|congruence].
  specialize (R1 _ eq_refl). specialize (R2 _ eq_refl). destruct (faults (env_of U h tb) p1); [|congruence].
  destruct R1 as (c1 & m1 & l1 & -> & -> & K1), R2 as (c2 & m2 & l2 & -> & -> & K2).
  inversion Hr as [|c m n Hn| | | |]; subst. rewrite (same_key_lookup _ _ _ _ Hn) in K1. congruence.
Qed.
End Renamed.

(** ** Concrete cases *)

Definition ex_names_text : str := lit "user.age >= 18 AND (User.Admin OR env.missing = 1)".
Definition ex_names_lexer : lexer :=
  match tokenize ascii_only (lexer_init ex_names_text) with Ok l => l | Err _ => lexer_init [] end.
(** Of the eight attributes in the table the policy names two, and one that is not there. *)
Example ex_only : tokenize ascii_only (lexer_init ex_names_text) = Ok ex_names_lexer /\
  only ascii_only (lx_atts ex_names_lexer) ex_table = [(lit "user.age", 0%nat); (lit "user.admin", 1%nat)] /\
  flat_map (token_keys ascii_only) (lx_atts ex_names_lexer) = [lit "user.age"; lit "user.admin"; lit "env.missing"] /\
  ex_run ex_names_text (Some ex_table) (Some 3) = Ok (tv TRUE, [WUnknownAtt]) /\
  ex_run ex_names_text (Some (only ascii_only (lx_atts ex_names_lexer) ex_table)) (Some 3) = Ok (tv TRUE, [WUnknownAtt]).
Proof. split; [vm_compute; reflexivity|]. split; [vm_compute; reflexivity|]. split; [vm_compute; reflexivity|]. split; vm_compute; reflexivity. Qed.
(** Without an attribute that is named the decision changes. *)
Example ex_without : ex_run ex_names_text (Some [(lit "user.age", 0%nat)]) (Some 3) = Ok (tv UNDEF, [WUnknownAtt; WUnknownAtt]).
Proof. vm_compute. reflexivity. Qed.
(** C123_values: other objects with the same values in another order. *)
Example ex_values : ex_run (lit "user.age") (Some ex_table) None = Ok (Ok (Some (RSym 0%nat)), []) /\
  (match parse_text ascii_only (lit "user.age") 0 with
   | Ok (a, _) => snd (evaluate ascii_only (rev ex_heap) (interp_new a) (Some [(lit "user.age", 9%nat)]) None)
   | Err e => Err e end) = Ok (Some (RSym 9%nat)) /\
  env_of ascii_only ex_heap (Some ex_table) CatUser (lit "age") =
  env_of ascii_only (rev ex_heap) (Some [(lit "user.age", 9%nat)]) CatUser (lit "age").
Proof. split; [vm_compute; reflexivity|]. split; vm_compute; reflexivity. Qed.

(** C26_names: names that are spelled differently, for any kind of letters. *)
Example ex_respelled : respelled ascii_only
  (PAnd (PCmp OpGe (OAtt CatUser (lit "aGe")) (OAtom (AInt 18))) (PAtt CatUser (lit "ADMIN")))
  (PAnd (PCmp OpGe (OAtt CatUser (lit "age")) (OAtom (AInt 18))) (PAtt CatUser (lit "Admin"))) /\
  ~ same_key ascii_only CatUser (lit "age") (lit "ages").
Proof. split; [repeat constructor|]. vm_compute. discriminate. Qed.

Print Assumptions C26_exact.
Print Assumptions C26_names.
Print Assumptions C123_same.
Print Assumptions C123_att_list.
Print Assumptions C123_values.
Print Assumptions C123_needed.
