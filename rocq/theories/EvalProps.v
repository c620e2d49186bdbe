(** * EvalProps: the theorems about evaluation (C18 - C28, C57) *)

From Coq Require Import NArith ZArith List Bool String Lia QArith Qpower.
From Coq Require Import Floats.SpecFloat.
From Verif Require Import PyBase PyNum Lexer LexSpec LexProofs LexProofs2 LexCase LexProps Values Ast Parser Grammar
  ParseProofs ParseProofs2 Syntax PrintProofs ParseProps AbsProofs Symbols Interp EvalSpec EvalProofs EvalProofs2.
Import ListNotations.
Open Scope Z_scope.

(** ** C18 *)

(** The connectives are minimum, maximum and reversal of FALSE < UNDEF < TRUE, *)
Theorem C18_kleene (a b : tri) :
  rank (tri_and a b) = Nat.min (rank a) (rank b) /\
  rank (tri_or a b) = Nat.max (rank a) (rank b) /\
  rank (tri_not a) = (2 - rank a)%nat.
Proof. destruct a, b; auto. Qed.

(** hence satisfy the laws of a De Morgan lattice, *)
Theorem C18_laws (a b c : tri) :
  tri_and a b = tri_and b a /\ tri_or a b = tri_or b a /\
  tri_and a (tri_and b c) = tri_and (tri_and a b) c /\
  tri_or a (tri_or b c) = tri_or (tri_or a b) c /\
  tri_and a a = a /\ tri_or a a = a /\
  tri_and a (tri_or a b) = a /\ tri_or a (tri_and a b) = a /\
  tri_and a (tri_or b c) = tri_or (tri_and a b) (tri_and a c) /\
  tri_or a (tri_and b c) = tri_and (tri_or a b) (tri_or a c) /\
  tri_not (tri_not a) = a /\
  tri_not (tri_and a b) = tri_or (tri_not a) (tri_not b) /\
  tri_not (tri_or a b) = tri_and (tri_not a) (tri_not b).
Proof. destruct a, b, c; repeat split. Qed.

(** are monotone in information (UNDEF below TRUE and FALSE), *)
Definition info_le (a b : tri) : Prop := a = UNDEF \/ a = b.
Theorem C18_monotone (a a' b b' : tri) : info_le a a' -> info_le b b' ->
  info_le (tri_and a b) (tri_and a' b') /\ info_le (tri_or a b) (tri_or a' b') /\
  info_le (tri_not a) (tri_not a').
Proof. intros [->| ->] [->| ->]; destruct a', b'; unfold info_le; auto. Qed.

(** and only TRUE is truthy. *)
Theorem C18_truth (a : tri) : tri_truth a = true <-> a = TRUE.
Proof. destruct a; split; intros; auto; discriminate. Qed.

(** ** The first evaluation of a parsed policy *)

Definition table_of (tb : option table) : table := match tb with Some t => t | None => [] end.
(** The assignment an evaluation uses. *)
Definition env_of (U : unicode) (h : heap) (tb : option table) : env := table_env U h (table_of tb).

Definition root_outcome (U : unicode) (h : heap) (tb : table) (t : ptree) (p : pol)
    (v : ast * list warning * option exc) : Prop :=
  let '(a', ws, e) := v in
  match e with
  | Some x => root_faults (table_env U h tb) p = true /\ ierr t x
  | None =>
      root_faults (table_env U h tb) p = false /\
      map w_kind ws = warns (table_env U h tb) p /\
      if faults (table_env U h tb) p
      then exists c n l, p = PAtt c n /\ n_result a' = Some (RSym l) /\
                         st_lookup U tb (cat_prefix c ++ n) = Some l
      else n_result a' = Some (RV (VTri (den (table_env U h tb) p)))
  end.

Lemma eval_att_sym U h tb c k t n old l ws e :
  abs_cat c = Some k -> t_val t = TStr n ->
  eval_att U h tb c t old = (Some (RSym l), ws, e) -> old <> Some (RSym l) ->
  st_lookup U tb (cat_prefix k ++ n) = Some l.
Proof.
  intros Hc Hv H Ho. unfold eval_att in H.
  assert (Hn : att_to_symbol_name c t = Ok (cat_prefix k ++ n)).
  { unfold att_to_symbol_name. destruct c; cbn in Hc; try discriminate; injection Hc as <-; cbn [bind];
    rewrite Hv; reflexivity. }
  rewrite Hn in H. destruct (st_lookup U tb _) as [l'|]; [|discriminate].
  destruct (negb _); [discriminate|]. destruct (symtype_eqb _ _); [discriminate|]. now injection H as ->.
Qed.

Lemma eval_root U h tb nd p : heap_ok h -> fresh U nd -> abs (erase nd) = Some p ->
  root_outcome U h tb (erase nd) p (eval_node U h tb nd).
Proof.
  intros Hh Hf Ha. destruct (visit_pol U h tb Hh nd p Hf Ha) as [O R].
  unfold root_outcome. destruct p as [x|c n|o l r|q|q r|q r].
  - destruct (eval_node U h tb nd) as [[a' ws] e]. cbn in R. destruct R as (x' & -> & Hi). auto.
  - rewrite <- R. destruct (visit U h tb nd) as [[a' ws] e] eqn:V. unfold pol_outcome in O.
    destruct nd as [cl t i r ks]. cbn [erase] in Ha.
    apply abs_inv in Ha as [(_ & _ & x & _ & H)|[(k & s & Hc & Ht & Hks & [= <- <-])|[(_ & k & q & _ & _ & H)|
      [(_ & lt & rt & o & a & b & _ & _ & _ & _ & H)|(_ & lt & rt & a & b & _ & _ & _ & [[_ H]|[_ H]])]]]]; try discriminate H.
    destruct ks; [|discriminate].
    assert (r = None) as ->.
    { eapply fresh_no_result; [exact Hf|]. left. eapply att_cls; eauto. }
    rewrite visit_none, eval_node_unfold in V. cbn [eval_kids] in V. rewrite (att_self U h tb cl c) in V by auto.
    destruct (eval_att_ok U h tb cl t None c n Hc Ht) as (rv & w & Ee & Hs & Hw). rewrite Ee in V.
    injection V as <- <- <-. split; [reflexivity|]. split; [exact Hw|].
    destruct (faults (table_env U h tb) (PAtt c n)).
    + destruct O as (_ & _ & l & Hl). cbn in Hl. injection Hl as ->. exists c, n, l.
      repeat split; auto. eapply eval_att_sym; eauto. discriminate.
    + destruct O as [_ O]. exact O.
  - rewrite <- R. destruct (visit U h tb nd) as [[a' ws] [x|]]; unfold pol_outcome in O; [exact O|].
    destruct O as [Hw O]. change (root_faults (table_env U h tb) (PCmp o l r)) with (faults (table_env U h tb) (PCmp o l r)).
    destruct (faults _ _); auto. destruct O as [(? & ? & ?) _]; discriminate.
  - rewrite <- R. destruct (visit U h tb nd) as [[a' ws] [x|]]; unfold pol_outcome in O; [exact O|].
    destruct O as [Hw O]. change (root_faults (table_env U h tb) (PNot q)) with (faults (table_env U h tb) (PNot q)).
    destruct (faults _ _); auto. destruct O as [(? & ? & ?) _]; discriminate.
  - rewrite <- R. destruct (visit U h tb nd) as [[a' ws] [x|]]; unfold pol_outcome in O; [exact O|].
    destruct O as [Hw O]. change (root_faults (table_env U h tb) (PAnd q r)) with (faults (table_env U h tb) (PAnd q r)).
    destruct (faults _ _); auto. destruct O as [(? & ? & ?) _]; discriminate.
  - rewrite <- R. destruct (visit U h tb nd) as [[a' ws] [x|]]; unfold pol_outcome in O; [exact O|].
    destruct O as [Hw O]. change (root_faults (table_env U h tb) (POr q r)) with (faults (table_env U h tb) (POr q r)).
    destruct (faults _ _); auto. destruct O as [(? & ? & ?) _]; discriminate.
Qed.

Lemma parsed U text last a n' : unicode_ok U -> parse_text U text last = Ok (a, n') ->
  fresh U a /\ exists p, abs (erase a) = Some p.
Proof.
  intros uok H. split; [|eapply parse_text_abs; eauto].
  unfold parse_text in H. apply bind_ok in H as (ts & _ & H). eapply parse_fresh; eauto.
Qed.

(** Everything about one first evaluation. *)
Definition eval_spec (U : unicode) (h : heap) (tb : option table) (level : option Z) (t : ptree) (p : pol)
    (x : interp * res (option rval)) : Prop :=
  let E := env_of U h tb in
  let ws := i_warnings (fst x) in
  if root_faults E p then exists e, snd x = Err e /\ ierr t e
  else map w_kind ws = warns E p /\
    match ws, level with
    | w :: _, None => snd x = Err EType
    | w :: _, Some z => if z <=? 2 then snd x = Err (EInterpWarning (w_pos w)) else exists r, snd x = Ok r
    | [], _ => exists r, snd x = Ok r
    end /\
    forall r, snd x = Ok r ->
      if faults E p
      then exists c n l, p = PAtt c n /\ r = Some (RSym l) /\ st_lookup U (table_of tb) (cat_prefix c ++ n) = Some l
      else r = Some (RV (VTri (den E p))).

Lemma first_eval U h text last a n' tb level :
  unicode_ok U -> heap_ok h -> parse_text U text last = Ok (a, n') ->
  exists p, abs (erase a) = Some p /\
    eval_spec U h tb level (erase a) p (evaluate U h (interp_new a) tb level).
Proof.
  intros uok Hh H. apply parsed in H as [Hf [p Ha]]; auto. exists p. split; auto.
  pose proof (eval_root U h (table_of tb) a p Hh Hf Ha) as R.
  unfold eval_spec, evaluate, env_of. cbn [i_ast interp_new i_warnings]. fold (table_of tb).
  destruct (eval_node U h (table_of tb) a) as [[a' ws] [x|]]; unfold root_outcome in R.
  - destruct R as [-> Hi]. cbn. eauto.
  - destruct R as (-> & Hw & R). cbn [app].
    assert (Rr : forall r, Ok (n_result a') = Ok r ->
      if faults (table_env U h (table_of tb)) p
      then exists c n l, p = PAtt c n /\ r = Some (RSym l) /\ st_lookup U (table_of tb) (cat_prefix c ++ n) = Some l
      else r = Some (RV (VTri (den (table_env U h (table_of tb)) p)))).
    { intros r [= <-]. destruct (faults _ p); auto. }
    destruct ws as [|w ws].
    + cbn [fst snd i_warnings]. repeat split; eauto.
    + unfold warn_level. destruct level as [z|]; [destruct (z <=? 2)|]; cbn [fst snd i_warnings];
      repeat split; eauto; intros r [=].
Qed.

Tactic Notation "first_eval_as" ident(p) ident(Ha) ident(S) := lazymatch goal with
  | uok : unicode_ok ?U, Hh : heap_ok ?h, Hp : parse_text ?U ?text ?last = Ok (?a, ?n'),
    He : evaluate ?U ?h (interp_new ?a) ?tb ?level = _ |- _ =>
      destruct (first_eval U h text last a n' tb level uok Hh Hp) as (p & Ha & S);
      rewrite He in S; unfold eval_spec in S; cbn [fst snd] in S
  end.

(** ** C19 *)

(** What a first evaluation returns is the meaning of the policy; a policy that is
    just a non-boolean attribute gives the Symbol object. *)
Theorem C19_evaluation (U : unicode) (h : heap) (text : str) (last : Z) (a : ast) (n' : Z)
    (tb : option table) (level : option Z) (it' : interp) (r : option rval) :
  unicode_ok U -> heap_ok h -> parse_text U text last = Ok (a, n') ->
  evaluate U h (interp_new a) tb level = (it', Ok r) ->
  exists p, abs (erase a) = Some p /\
    ((r = Some (RV (VTri (den (env_of U h tb) p)))) \/
     (exists c n l, p = PAtt c n /\ r = Some (RSym l) /\
        st_lookup U (table_of tb) (cat_prefix c ++ n) = Some l /\
        check_val_type (hget h l) = true /\ sy_type (hget h l) <> ST_BOOL)).
Proof.
  intros uok Hh Hp He. first_eval_as p Ha S. exists p. split; auto.
  destruct (root_faults _ p); [destruct S as (? & ? & _); discriminate|].
  destruct S as (_ & _ & S). specialize (S r eq_refl).
  destruct (faults (env_of U h tb) p) eqn:Ef; auto. right.
  destruct S as (c & n & l & -> & -> & Hl). exists c, n, l. repeat split; auto.
  - cbn in Ef. unfold env_of, table_env in Ef. rewrite Hl in Ef. cbn in Ef. unfold check_val_type.
    destruct (sy_type (hget h l)), (sy_value (hget h l)); cbn in *; auto; discriminate.
  - intros Et. cbn in Ef. unfold env_of, table_env in Ef. rewrite Hl in Ef. cbn in Ef. rewrite Et in Ef.
    destruct (sy_value (hget h l)) as [| | | | |[]| | |]; discriminate.
Qed.

Lemma evaluate_ok U h it tb level it' r :
  evaluate U h it tb level = (it', Ok r) ->
  exists ws, eval_node U h (table_of tb) (i_ast it) = (i_ast it', ws, None) /\
    i_warnings it' = i_warnings it ++ ws /\ r = n_result (i_ast it').
Proof.
  unfold evaluate. fold (table_of tb). destruct (eval_node U h (table_of tb) (i_ast it)) as [[a' ws] [x|]]; [discriminate|].
  cbn [i_warnings]. destruct (i_warnings it ++ ws) as [|w rest] eqn:Ew.
  - intros [= <- <-]. cbn. eauto.
  - destruct level as [z|]; [destruct (z <=? warn_level)|]; intros [= <- <-]; cbn; eauto.
Qed.

Lemma evaluate_settled U h text last a n' tb level it' r :
  unicode_ok U -> heap_ok h -> parse_text U text last = Ok (a, n') ->
  evaluate U h (interp_new a) tb level = (it', Ok r) ->
  settled U h (table_of tb) (i_ast it') /\ erase (i_ast it') = erase a.
Proof.
  intros uok Hh Hp He. apply evaluate_ok in He as (ws & He & _ & _). cbn [i_ast interp_new] in He.
  apply parsed in Hp as [Hf [p Ha]]; auto.
  pose proof (eval_erase U h (table_of tb) a) as Ee. rewrite He in Ee. split; auto.
  eapply visit_settled; eauto; [left; eauto|].
  destruct (visit_pol U h (table_of tb) Hh a p Hf Ha) as [_ R].
  destruct p; try (rewrite R; exact He). destruct R as (x & Hx & _). rewrite He in Hx. discriminate.
Qed.

(** There is no short-circuit: every sub-policy below NOT, AND and OR has been
    given its own meaning, whatever its siblings are. *)
Theorem C19_subpolicies (U : unicode) (h : heap) (text : str) (last : Z) (a : ast) (n' : Z)
    (tb : option table) (level : option Z) (it' : interp) (r : option rval) :
  unicode_ok U -> heap_ok h -> parse_text U text last = Ok (a, n') ->
  evaluate U h (interp_new a) tb level = (it', Ok r) ->
  erase (i_ast it') = erase a /\
  forall s q, sub s (i_ast it') -> abs (erase s) = Some q -> (forall c n, q <> PAtt c n) ->
    n_result s = Some (RV (VTri (den (env_of U h tb) q))).
Proof.
  intros uok Hh Hp He. destruct (evaluate_settled _ _ _ _ _ _ _ _ _ _ uok Hh Hp He) as [S Ee].
  split; auto. intros s q Hs Hq Hn. destruct (S s Hs) as [H _]. specialize (H q Hq).
  destruct q; try (apply H). exfalso. eapply Hn; reflexivity.
Qed.

(** ** C20 *)

Lemma warns_nil {A B} (f : A -> B) l : map f l = [] -> l = [].
Proof. destruct l; auto. discriminate. Qed.

(** When evaluate() raises: a fault of the policy, or a warning that reaches the level
    (or cannot be compared with it because the level was left out). *)
Theorem C20_raises (U : unicode) (h : heap) (text : str) (last : Z) (a : ast) (n' : Z)
    (tb : option table) (level : option Z) :
  unicode_ok U -> heap_ok h -> parse_text U text last = Ok (a, n') ->
  exists p, abs (erase a) = Some p /\
    ((exists e, snd (evaluate U h (interp_new a) tb level) = Err e) <->
     root_faults (env_of U h tb) p = true \/
     (warns (env_of U h tb) p <> [] /\ (level = None \/ exists z, level = Some z /\ z <= 2))).
Proof.
  intros uok Hh Hp. destruct (first_eval U h text last a n' tb level uok Hh Hp) as (p & Ha & S).
  exists p. split; auto. destruct (evaluate U h (interp_new a) tb level) as [it' x].
  unfold eval_spec in S. cbn [fst snd] in *.
  destruct (root_faults _ p); [destruct S as (e & -> & _); split; eauto|].
  destruct S as (Hw & S & _). destruct (i_warnings it') as [|w ws].
  - destruct S as [r ->]. split; [intros [e [=]]|]. intros [[=]|[H _]]. now rewrite <- Hw in H.
  - assert (Hn : warns (env_of U h tb) p <> []) by (rewrite <- Hw; discriminate).
    destruct level as [z|].
    + destruct (z <=? 2) eqn:Ez.
      * rewrite S. split; eauto. intros _. right. split; auto. right. exists z. split; auto. lia.
      * destruct S as [r ->]. split; [intros [e [=]]|].
        intros [[=]|[_ [[=]|(z' & [= <-] & Hz)]]]. lia.
    + rewrite S. split; eauto.
Qed.

(** What is raised then. *)
Theorem C20_exceptions (U : unicode) (h : heap) (text : str) (last : Z) (a : ast) (n' : Z)
    (tb : option table) (level : option Z) (e : exc) :
  unicode_ok U -> heap_ok h -> parse_text U text last = Ok (a, n') ->
  snd (evaluate U h (interp_new a) tb level) = Err e ->
  e = EType \/ (exists z, In z (positions (erase a)) /\ e = EInterp z) \/ (exists z, e = EInterpWarning z).
Proof.
  intros uok Hh Hp He. destruct (first_eval U h text last a n' tb level uok Hh Hp) as (p & Ha & S).
  unfold eval_spec in S. destruct (root_faults _ p).
  - destruct S as (e' & He' & [->|Hi]); rewrite He in He'; injection He' as ->; auto.
  - destruct S as (_ & S & _). destruct (i_warnings _) as [|w ws]; [destruct S as [r S]; congruence|].
    destruct level as [z|]; [destruct (z <=? 2); [|destruct S as [r S]]|]; rewrite He in S; try discriminate;
    injection S as ->; eauto.
Qed.

(** Sub-policies. *)
Inductive inside (q : pol) : pol -> Prop :=
| in_here : inside q q
| in_not p : inside q p -> inside q (PNot p)
| in_and1 p r : inside q p -> inside q (PAnd p r)
| in_and2 p r : inside q r -> inside q (PAnd p r)
| in_or1 p r : inside q p -> inside q (POr p r)
| in_or2 p r : inside q r -> inside q (POr p r).

Lemma inside_faults E q p : inside q p -> faults E q = true -> faults E p = true.
Proof.
  induction 1; cbn; auto; intros Hq; rewrite (IHinside Hq); auto using orb_true_r.
Qed.

(** A policy in which 0, 0.0 or "" is compared with something, or with a FALSE or
    UNDEF literal, or which is just a boolean literal, raises for all attributes. *)
Theorem C20_never_evaluates (U : unicode) (h : heap) (text : str) (last : Z) (a : ast) (n' : Z)
    (tb : option table) (level : option Z) (p q : pol) :
  unicode_ok U -> heap_ok h -> parse_text U text last = Ok (a, n') ->
  abs (erase a) = Some p -> inside q p ->
  (exists o l r, q = PCmp o l r /\ (zero_operand l = true \/ zero_operand r = true)) \/
  q = PConst FALSE \/ q = PConst UNDEF \/ (q = p /\ p = PConst TRUE) ->
  exists e, snd (evaluate U h (interp_new a) tb level) = Err e.
Proof.
  intros uok Hh Hp Ha Hi Hq.
  destruct (C20_raises U h text last a n' tb level uok Hh Hp) as (p' & Ha' & H).
  rewrite Ha in Ha'. injection Ha' as <-. apply H. left.
  assert (Hr : p = PConst TRUE \/ faults (env_of U h tb) p = true).
  { destruct Hq as [(o & l & r & -> & Hz)|[->|[->|[_ ->]]]]; auto; right; (eapply inside_faults; [exact Hi|]); auto.
    cbn. unfold cmp_faults. destruct Hz as [->| ->]; auto using orb_true_r. now rewrite orb_true_r. }
  destruct Hr as [->|Hr]; auto. destruct p; auto. exfalso.
  inversion Hi; subst. destruct Hq as [(o & l & r & [=] & _)|[[=]|[[=]|[_ [=]]]]].
Qed.

(** ** C21 *)

(** A value of the declared type (bool is a subclass of int). *)
Inductive fits : symtype -> pyval -> Prop :=
| fi_int z ty : ty = ST_INT \/ ty = ST_FLOAT -> fits ty (VInt z)
| fi_float f ty : ty = ST_INT \/ ty = ST_FLOAT -> fits ty (VFloat f)
| fi_bool b ty : ty = ST_INT \/ ty = ST_FLOAT -> fits ty (VBool b)
| fi_str s : fits ST_STRING (VStr s)
| fi_set l : fits ST_SET (VSet l)
| fi_list l : fits ST_SET (VList l)
| fi_tri t : fits ST_BOOL (VTri t).

(** Absent, without a value, or with a value that is not of its type. *)
Definition unusable (x : option (symtype * pyval)) : Prop :=
  x = None \/ exists ty v, x = Some (ty, v) /\ ~ fits ty v.

Lemma unusable_kind x : unusable x -> att_kind x = KUndef.
Proof.
  intros [->|(ty & v & -> & Hf)]; auto. destruct ty, v; auto; exfalso; apply Hf; constructor; auto.
Qed.
Lemma unusable_warns E c n : unusable (E c n) -> In WUnknownAtt (att_warns E c n) \/ In WBadType (att_warns E c n).
Proof.
  unfold att_warns. intros [->|(ty & v & -> & Hf)]; [left; now left|]. right.
  destruct ty, v; cbn; auto; try (destruct t); cbn; auto; exfalso; apply Hf; constructor; auto.
Qed.

Definition has_operand (o : operand) (q : pol) : Prop :=
  match q with PCmp _ l r => l = o \/ r = o | PAtt c n => o = OAtt c n | _ => False end.

Lemma inside_warns E q p w : inside q p -> In w (warns E q) -> In w (warns E p).
Proof. induction 1; cbn; auto; intros; apply in_or_app; auto. Qed.

Lemma sub_erase s nd p q : sub s nd -> abs (erase nd) = Some p -> abs (erase s) = Some q ->
  (forall c n, q <> PAtt c n) -> inside q p.
Proof.
  intros Hs. revert p. induction Hs as [n|s k c t i r ks Hk Hs IH]; intros p Hp Hq Hn.
  - rewrite Hp in Hq. injection Hq as <-. constructor.
  - cbn [erase] in Hp.
    assert (Hleaf : forall k o, abs_operand (erase k) = Some o -> sub s k -> False).
    { clear - Hq Hn. intros k. induction k as [c t i r ks IH] using ast_ind'. intros o Ho Hs.
      cbn [erase] in Ho. inversion Hs as [|s' k c' t' i' r' ks' Hk Hsk]; subst.
      - cbn [erase] in Hq. apply abs_inv in Hq as [(-> & _ & x & _ & H)|[(k & s & Hc & Ht & Hks & ->)|[(-> & k & q' & _ & _ & H)|
          [(-> & lt & rt & o' & a & b & _ & _ & _ & _ & H)|(-> & lt & rt & a & b & _ & _ & _ & H)]]]];
        try (destruct t; cbn in Ho; discriminate). eapply Hn; reflexivity.
      - apply abs_operand_inv in Ho as [(e & l & -> & Hl & ->)|[(k2 & s2 & _ & _ & H & _)|(x & Hx & _)]].
        + assert (Hik : In (erase k) (map erase ks)) by now apply in_map.
          destruct (optM_in _ _ _ _ Hl Hik) as [y Hy]. apply abs_atom_operand in Hy.
          rewrite Forall_forall in IH. eapply IH; eauto.
        + destruct ks; [destruct Hk|discriminate].
        + apply abs_atom_leaf in Hx as [H _]. destruct ks; [destruct Hk|discriminate]. }
    apply abs_inv in Hp as [(-> & Hks & _)|[(k2 & s2 & _ & _ & Hks & _)|[(-> & kp & q' & Hks & Hq' & ->)|
          [(-> & lt & rt & o' & a & b & Hks & _ & Ha & Hb & ->)|(-> & lt & rt & a & b & Hks & Ha & Hb & Hp)]]]].
    + destruct ks; [destruct Hk|discriminate].
    + destruct ks; [destruct Hk|discriminate].
    + destruct ks as [|k1 [|]]; try discriminate. injection Hks as <-. destruct Hk as [->|[]].
      apply in_not. auto.
    + exfalso. destruct ks as [|k1 [|k2 [|]]]; try discriminate. injection Hks as <- <-.
      destruct Hk as [->|[->|[]]]; [exact (Hleaf _ _ Ha Hs)|exact (Hleaf _ _ Hb Hs)].
    + destruct ks as [|k1 [|k2 [|]]]; try discriminate. injection Hks as <- <-.
      destruct Hk as [->|[->|[]]]; destruct Hp as [[_ ->]|[_ ->]];
      [apply in_and1|apply in_or1|apply in_and2|apply in_or2]; auto.
Qed.

(** Anywhere in the policy, a comparison with an unusable attribute is UNDEF (so it is
    not TRUE), and a warning about an attribute is recorded. *)
Theorem C21_unusable (U : unicode) (h : heap) (text : str) (last : Z) (a : ast) (n' : Z)
    (tb : option table) (level : option Z) (it' : interp) (r : option rval)
    (s : ast) (o : cmp) (x y : operand) (c : cat) (n : str) :
  unicode_ok U -> heap_ok h -> parse_text U text last = Ok (a, n') ->
  evaluate U h (interp_new a) tb level = (it', Ok r) ->
  sub s (i_ast it') -> abs (erase s) = Some (PCmp o x y) -> OAtt c n = x \/ OAtt c n = y ->
  unusable (env_of U h tb c n) ->
  n_result s = Some (RV (VTri UNDEF)) /\
  exists w, In w (i_warnings it') /\ (w_kind w = WUnknownAtt \/ w_kind w = WBadType).
Proof.
  intros uok Hh Hp He Hs Hq Ho Hu. pose proof (unusable_kind _ Hu) as Hk.
  destruct (C19_subpolicies _ _ _ _ _ _ _ _ _ _ uok Hh Hp He) as [Ee H]. split.
  - erewrite H; eauto; [|discriminate]. cbn [den]. unfold cmp_den.
    assert (undefined (operand_kind (env_of U h tb) x) || undefined (operand_kind (env_of U h tb) y) = true) as ->; auto.
    destruct Ho as [<-|<-]; cbn [operand_kind]; rewrite Hk; auto using orb_true_r.
  - first_eval_as p Ha S. destruct (root_faults _ p); [destruct S as (? & ? & _); discriminate|].
    destruct S as (Hw & _ & _).
    assert (Hi : inside (PCmp o x y) p).
    { eapply (sub_erase s (i_ast it')); eauto; [rewrite Ee; exact Ha|discriminate]. }
    assert (Hx : In WUnknownAtt (warns (env_of U h tb) p) \/ In WBadType (warns (env_of U h tb) p)).
    { destruct (unusable_warns _ _ _ Hu) as [W|W]; [left|right]; (eapply inside_warns; [exact Hi|]);
      cbn [warns]; rewrite !in_app_iff; destruct Ho as [<-|<-]; cbn [operand_warns]; auto. }
    rewrite <- Hw in Hx. destruct Hx as [Hx|Hx]; apply in_map_iff in Hx as (w & Hk2 & Hi2); exists w; auto.
Qed.

(** A policy that is just an unusable attribute is UNDEF, too. *)
Theorem C21_bare (U : unicode) (h : heap) (text : str) (last : Z) (a : ast) (n' : Z)
    (tb : option table) (level : option Z) (it' : interp) (r : option rval) (c : cat) (n : str) :
  unicode_ok U -> heap_ok h -> parse_text U text last = Ok (a, n') ->
  evaluate U h (interp_new a) tb level = (it', Ok r) ->
  abs (erase a) = Some (PAtt c n) -> unusable (env_of U h tb c n) ->
  r = Some (RV (VTri UNDEF)) /\
  exists w, In w (i_warnings it') /\ (w_kind w = WUnknownAtt \/ w_kind w = WBadType).
Proof.
  intros uok Hh Hp He Ha Hu. first_eval_as p Ha' S. rewrite Ha in Ha'. injection Ha' as <-.
  cbn [root_faults] in S. destruct S as (Hw & _ & S). specialize (S r eq_refl).
  cbn [faults den] in S. rewrite (unusable_kind _ Hu) in S. split; auto.
  cbn [warns] in Hw. destruct (unusable_warns _ _ _ Hu) as [W|W]; rewrite <- Hw in W;
  apply in_map_iff in W as (w & Hk2 & Hi2); exists w; auto.
Qed.

(** ** C22 *)

(** The second assignment agrees with the first on every attribute that was usable
    and not UNDEF. *)
Definition more_info (E E' : env) : Prop :=
  forall c n, unusable (E c n) \/ E c n = Some (ST_BOOL, VTri UNDEF) \/ E c n = E' c n.

Lemma more_info_kind E E' c n : more_info E E' -> att_kind (E c n) = KUndef \/ att_kind (E c n) = att_kind (E' c n).
Proof. intros H. destruct (H c n) as [Hu|[->| ->]]; auto. left. now apply unusable_kind. Qed.

Lemma more_info_den E E' p : more_info E E' -> den E p <> UNDEF -> den E' p = den E p.
Proof.
  intros H. assert (G : info_le (den E p) (den E' p)).
  { induction p as [t|c n|o l r|p IH|p IHp q IHq|p IHp q IHq]; cbn [den].
    - now right.
    - destruct (more_info_kind E E' c n H) as [->| ->]; [now left|now right].
    - assert (K : forall x, operand_kind E x = KUndef \/ operand_kind E x = operand_kind E' x).
      { intros [x|x|c n]; cbn; auto. now apply more_info_kind. }
      unfold cmp_den. destruct (K l) as [->| ->]; [now left|]. destruct (K r) as [->| ->]; [|now right].
      cbn [undefined]. rewrite orb_true_r. now left.
    - rewrite <- !knot_ok. apply (C18_monotone _ _ UNDEF UNDEF); auto. now left.
    - rewrite <- !kand_ok. now apply C18_monotone.
    - rewrite <- !kor_ok. now apply C18_monotone. }
  destruct G as [G|G]; congruence.
Qed.

Theorem C22_monotone (U : unicode) (h h' : heap) (text : str) (last : Z) (a : ast) (n' : Z)
    (tb tb' : option table) (level level' : option Z) (it it' : interp) (t : tri) (r : option rval) :
  unicode_ok U -> heap_ok h -> heap_ok h' -> parse_text U text last = Ok (a, n') ->
  more_info (env_of U h tb) (env_of U h' tb') ->
  evaluate U h (interp_new a) tb level = (it, Ok (Some (RV (VTri t)))) -> t <> UNDEF ->
  evaluate U h' (interp_new a) tb' level' = (it', Ok r) ->
  r = Some (RV (VTri t)).
Proof.
  intros uok Hh Hh' Hp Hm H1 Ht H2.
  destruct (first_eval U h text last a n' tb level uok Hh Hp) as (p & Ha & S1).
  destruct (first_eval U h' text last a n' tb' level' uok Hh' Hp) as (p' & Ha' & S2).
  rewrite Ha in Ha'. injection Ha' as <-. rewrite H1 in S1. rewrite H2 in S2.
  unfold eval_spec in S1, S2. cbn [fst snd] in *.
  destruct (root_faults (env_of U h tb) p); [destruct S1 as (? & ? & _); discriminate|].
  destruct (root_faults (env_of U h' tb') p); [destruct S2 as (? & ? & _); discriminate|].
  destruct S1 as (_ & _ & S1). destruct S2 as (_ & _ & S2).
  specialize (S1 _ eq_refl). specialize (S2 _ eq_refl).
  destruct (faults (env_of U h tb) p) eqn:F1; [destruct S1 as (c & n & l & _ & [=] & _)|].
  injection S1 as ->.
  destruct (faults (env_of U h' tb') p) eqn:F2.
  - destruct S2 as (c & n & l & -> & -> & Hl). exfalso. cbn [faults den] in *.
    destruct (more_info_kind _ _ c n Hm) as [K|K]; [now rewrite K in Ht|]. rewrite <- K in F2.
    destruct (att_kind (env_of U h tb c n)); try discriminate; congruence.
  - rewrite S2. do 3 f_equal. now apply more_info_den.
Qed.

(** ** C23 *)

(** Exact values of numbers. *)
Inductive real : Type := Fin (q : Q) | PInf | NInf.
Definition real_of (n : num) : option real :=
  match n with
  | NInt z => Some (Fin (inject_Z z))
  | NFloat (S754_zero _) => Some (Fin 0)
  | NFloat (S754_infinity s) => Some (if s then NInf else PInf)
  | NFloat S754_nan => None
  | NFloat (S754_finite s m e) => Some (Fin (inject_Z (if s then Z.neg m else Z.pos m) * Qpower 2 e))
  end.
Definition rlt (a b : real) : Prop :=
  match a, b with
  | Fin p, Fin q => (p < q)%Q
  | NInf, (Fin _ | PInf) | Fin _, PInf => True
  | _, _ => False
  end.
Definition req (a b : real) : Prop :=
  match a, b with
  | Fin p, Fin q => (p == q)%Q
  | PInf, PInf | NInf, NInf => True
  | _, _ => False
  end.
(** The relation of each operator; NaN is in no relation but !=. *)
Definition related (o : cmp) (x y : option real) : Prop :=
  match o with
  | OpLt => exists a b, x = Some a /\ y = Some b /\ rlt a b
  | OpGt => exists a b, x = Some a /\ y = Some b /\ rlt b a
  | OpLe => exists a b, x = Some a /\ y = Some b /\ (rlt a b \/ req a b)
  | OpGe => exists a b, x = Some a /\ y = Some b /\ (rlt b a \/ req a b)
  | OpEq => exists a b, x = Some a /\ y = Some b /\ req a b
  | OpNe => ~ exists a b, x = Some a /\ y = Some b /\ req a b
  | _ => False
  end.

(** Operands that denote a number. *)
Inductive number (E : env) : operand -> num -> Prop :=
| nu_int z : number E (OAtom (AInt z)) (NInt z)
| nu_float f : number E (OAtom (AFloat f)) (NFloat f)
| nu_att c n ty v x : E c n = Some (ty, v) -> ty = ST_INT \/ ty = ST_FLOAT -> as_num v = Some x ->
                      number E (OAtt c n) x.

Lemma dyadic_compare m1 e1 m2 e2 :
  let e := Z.min e1 e2 in
  Z.compare (m1 * 2 ^ (e1 - e)) (m2 * 2 ^ (e2 - e)) =
  Qcompare (inject_Z m1 * Qpower 2 e1) (inject_Z m2 * Qpower 2 e2).
Proof.
  intros e.
  assert (T : forall m k, (e <= k)%Z -> (inject_Z m * Qpower 2 k == inject_Z (m * 2 ^ (k - e)) * Qpower 2 e)%Q).
  { intros m k Hk. rewrite inject_Z_mult, Zpower_Qpower by lia.
    rewrite <- Qmult_assoc, <- Qpower_plus by discriminate.
    now replace (k - e + e)%Z with k by lia. }
  rewrite (T m1 e1), (T m2 e2) by (unfold e; lia).
  set (a := (m1 * 2 ^ (e1 - e))%Z). set (b := (m2 * 2 ^ (e2 - e))%Z).
  assert (P : (0 < Qpower 2 e)%Q).
  { assert (N : (~ Qpower 2 e == 0)%Q) by (apply Qpower_not_0; discriminate).
    assert (G : (0 <= Qpower 2 e)%Q) by (apply Qpower_pos; discriminate).
    apply Qle_lteq in G as [G|G]; auto. exfalso. apply N. now rewrite <- G. }
  symmetry. destruct (Z.compare_spec a b) as [H|H|H].
  - rewrite <- Qeq_alt. now rewrite H.
  - rewrite <- Qlt_alt. apply Qmult_lt_r; auto. now rewrite <- Zlt_Qlt.
  - rewrite <- Qgt_alt. apply Qmult_lt_r; auto. now rewrite <- Zlt_Qlt.
Qed.

Lemma num_cmp_spec x y :
  match num_cmp x y with
  | None => real_of x = None \/ real_of y = None
  | Some c => exists a b, real_of x = Some a /\ real_of y = Some b /\
      match c with Lt => rlt a b | Eq => req a b | Gt => rlt b a end
  end.
Proof.
  assert (D : forall n, match ext_of n with
     | ENaN => real_of n = None | EInf s => real_of n = Some (if s then NInf else PInf)
     | EFin m e => exists q, real_of n = Some (Fin q) /\ (q == inject_Z m * Qpower 2 e)%Q end).
  { intros [z|[s|s| |s m e]]; cbn; auto; eexists; (split; [reflexivity|]); try reflexivity.
    all: now rewrite Qmult_1_r. }
  pose proof (D x) as Hx. pose proof (D y) as Hy. clear D. unfold num_cmp.
  destruct (ext_of x) as [m1 e1|s1|], (ext_of y) as [m2 e2|s2|]; auto.
  - destruct Hx as (p & -> & Hp), Hy as (q & -> & Hq). cbv zeta. rewrite dyadic_compare.
    exists (Fin p), (Fin q). repeat split. rewrite <- (Qcompare_comp p _ Hp q _ Hq).
    destruct (Qcompare_spec p q); auto.
  - destruct Hx as (p & -> & Hp). rewrite Hy. destruct s2; eexists _, _; repeat split.
  - destruct Hy as (q & -> & Hq). rewrite Hx. destruct s1; eexists _, _; repeat split.
  - rewrite Hx, Hy. destruct s1, s2; eexists _, _; repeat split.
Qed.

Lemma rlt_excl a b : rlt a b -> ~ rlt b a /\ ~ req a b /\ ~ req b a.
Proof.
  destruct a as [p| |], b as [q| |]; cbn; try tauto. intros H.
  repeat split; intros G.
  - apply (Qlt_irrefl p). now apply (Qlt_trans _ q).
  - rewrite G in H. now apply Qlt_irrefl in H.
  - rewrite G in H. now apply Qlt_irrefl in H.
Qed.
Lemma req_sym a b : req a b -> req b a.
Proof. destruct a, b; cbn; auto. intros H. now rewrite H. Qed.
Lemma req_excl a b : req a b -> ~ rlt a b /\ ~ rlt b a.
Proof. intros H. split; intros G; apply rlt_excl in G; destruct G as (_ & G1 & G2); auto. Qed.

Definition decides (r : option rval) (P : Prop) : Prop :=
  (r = Some (RV (VTri TRUE)) /\ P) \/ (r = Some (RV (VTri FALSE)) /\ ~ P).

(** The value a returning comparison has. *)
Lemma cmp_result U h text last a n' tb level it' r o x y :
  unicode_ok U -> heap_ok h -> parse_text U text last = Ok (a, n') ->
  abs (erase a) = Some (PCmp o x y) ->
  evaluate U h (interp_new a) tb level = (it', Ok r) ->
  cmp_faults (env_of U h tb) o x y = false /\
  r = Some (RV (VTri (cmp_den o (operand_kind (env_of U h tb) x) (operand_kind (env_of U h tb) y)))).
Proof.
  intros uok Hh Hp Ha He. first_eval_as p Ha' S. rewrite Ha in Ha'. injection Ha' as <-.
  cbn [root_faults faults den] in S. destruct (cmp_faults _ o x y); [destruct S as (? & ? & _); discriminate|].
  destruct S as (_ & _ & S). split; auto.
Qed.

Lemma number_kind E x n : number E x n -> knum (operand_kind E x) = Some n /\ undefined (operand_kind E x) = false /\
  exists v, kval (operand_kind E x) = Some v /\ as_num v = Some n /\
    match operand_kind E x with KAtom _ | KScal _ => True | _ => False end.
Proof.
  destruct 1 as [z|f|c n ty v x He Hty Hv]; cbn; eauto 6.
  rewrite He. destruct Hty as [->| ->]; destruct v; try discriminate; cbn; cbn in Hv; eauto 6.
Qed.

Lemma same_sort_num v w x y : as_num v = Some x -> as_num w = Some y ->
  same_sort_eq v w = Some (num_eqb x y) /\ py_eq v w = num_eqb x y.
Proof. destruct v, w; cbn; try discriminate; intros [= <-] [= <-]; auto. Qed.

Lemma eq_num E x y m n : number E x m -> number E y n ->
  eq_den (operand_kind E x) (operand_kind E y) = Some (num_eqb m n).
Proof.
  intros Hx Hy. apply number_kind in Hx as (_ & _ & v & Kv & Nv & Sx). apply number_kind in Hy as (_ & _ & w & Kw & Nw & Sy).
  destruct (same_sort_num v w m n Nv Nw) as [S P]. unfold eq_den.
  destruct (operand_kind E x); try destruct Sx; destruct (operand_kind E y); try destruct Sy;
  rewrite ?Kv, ?Kw; auto. cbn in Kv, Kw. injection Kv as ->. injection Kw as ->. cbn.
  unfold set_equal, subset, member. cbn. rewrite P. now destruct (num_eqb m n).
Qed.

(** Comparing two numbers, literal or attribute, int or float, decides the exact relation. *)
Theorem C23_exact (U : unicode) (h : heap) (text : str) (last : Z) (a : ast) (n' : Z)
    (tb : option table) (level : option Z) (it' : interp) (r : option rval)
    (o : cmp) (x y : operand) (m n : num) :
  unicode_ok U -> heap_ok h -> parse_text U text last = Ok (a, n') ->
  abs (erase a) = Some (PCmp o x y) -> o <> OpIn -> o <> OpSubset ->
  number (env_of U h tb) x m -> number (env_of U h tb) y n ->
  evaluate U h (interp_new a) tb level = (it', Ok r) ->
  decides r (related o (real_of m) (real_of n)).
Proof.
  intros uok Hh Hp Ha Hi Hs Hx Hy He.
  destruct (cmp_result _ _ _ _ _ _ _ _ _ _ _ _ _ uok Hh Hp Ha He) as [_ ->].
  pose proof (eq_num _ _ _ _ _ Hx Hy) as Eq.
  apply number_kind in Hx as (Nx & Ux & _). apply number_kind in Hy as (Ny & Uy & _).
  unfold cmp_den. rewrite Ux, Uy. cbn [orb]. pose proof (num_cmp_spec m n) as Sp.
  unfold decides, num_eqb in *.
  destruct o; try congruence; cbn [cmp_bool]; rewrite ?Nx, ?Ny, ?Eq; cbn [option_map ineq related];
  (destruct (num_cmp m n) as [[]|];
    [destruct Sp as (p & q & Hm & Hn & Hc); rewrite Hm, Hn ..
    |]); cbn [negb];
  try (left; split; [reflexivity|]; eauto 6; fail);
  try (right; split; [reflexivity|];
       try (destruct Sp as [Sp|Sp]; rewrite Sp); intros (p' & q' & Hm' & Hn' & Hc');
       try discriminate; injection Hm' as <-; injection Hn' as <-;
       match type of Hc with req _ _ => apply req_excl in Hc | _ => apply rlt_excl in Hc end; tauto).
  - right. split; [reflexivity|]. intros H. apply H. eauto.
  - left. split; [reflexivity|]. intros (p' & q' & Hm' & Hn' & Hc').
    injection Hm' as <-; injection Hn' as <-. apply rlt_excl in Hc. tauto.
  - left. split; [reflexivity|]. intros (p' & q' & Hm' & Hn' & Hc').
    injection Hm' as <-; injection Hn' as <-. apply rlt_excl in Hc. tauto.
  - left. split; [reflexivity|]. intros (p' & q' & Hm' & Hn' & Hc'). destruct Sp as [Sp|Sp]; congruence.
Qed.

(** For numbers other than NaN exactly one of <, =, > holds, and the other operators
    are their combinations. *)
Theorem C23_trichotomy (m n : num) : real_of m <> None -> real_of n <> None ->
  let R o := related o (real_of m) (real_of n) in
  (R OpLt /\ ~ R OpEq /\ ~ R OpGt \/ ~ R OpLt /\ R OpEq /\ ~ R OpGt \/ ~ R OpLt /\ ~ R OpEq /\ R OpGt) /\
  (R OpLe <-> ~ R OpGt) /\ (R OpGe <-> ~ R OpLt) /\ (R OpNe <-> ~ R OpEq).
Proof.
  intros Hm Hn R. unfold R. clear R. pose proof (num_cmp_spec m n) as Sp.
  destruct (num_cmp m n) as [c|]; [|destruct Sp; congruence].
  destruct Sp as (a & b & -> & -> & Hc). cbn [related].
  assert (L : forall P : real -> real -> Prop, (exists x y, Some a = Some x /\ Some b = Some y /\ P x y) <-> P a b).
  { intros P. split; [intros (x & y & [= <-] & [= <-] & H); auto|eauto 6]. }
  rewrite (L (fun x y => rlt x y)), (L (fun x y => rlt y x)), (L (fun x y => req x y)),
    (L (fun x y => rlt x y \/ req x y)), (L (fun x y => rlt y x \/ req x y)).
  destruct c; [apply req_excl in Hc as X|apply rlt_excl in Hc as X|apply rlt_excl in Hc as X];
  (assert (req a b -> req b a) by apply req_sym); (assert (req b a -> req a b) by apply req_sym); tauto.
Qed.

(** ** C24 *)

(** Two parsed comparisons that differ only in = / !=. *)
Theorem C24_negation (U : unicode) (h : heap) (text1 text2 : str) (last1 last2 : Z) (a1 a2 : ast) (n1 n2 : Z)
    (tb : option table) (level : option Z) (x y : operand) :
  unicode_ok U -> heap_ok h ->
  parse_text U text1 last1 = Ok (a1, n1) -> parse_text U text2 last2 = Ok (a2, n2) ->
  abs (erase a1) = Some (PCmp OpEq x y) -> abs (erase a2) = Some (PCmp OpNe x y) ->
  match evaluate U h (interp_new a1) tb level, evaluate U h (interp_new a2) tb level with
  | (i1, Ok r1), (i2, Ok r2) =>
      map w_kind (i_warnings i1) = map w_kind (i_warnings i2) /\
      (r1 = Some (RV (VTri TRUE)) /\ r2 = Some (RV (VTri FALSE)) \/
       r1 = Some (RV (VTri FALSE)) /\ r2 = Some (RV (VTri TRUE)) \/
       r1 = Some (RV (VTri UNDEF)) /\ r2 = Some (RV (VTri UNDEF)))
  | (_, Err _), (_, Err _) => True
  | _, _ => False
  end.
Proof.
  intros uok Hh Hp1 Hp2 Ha1 Ha2.
  destruct (first_eval U h text1 last1 a1 n1 tb level uok Hh Hp1) as (p1 & Ha1' & S1).
  destruct (first_eval U h text2 last2 a2 n2 tb level uok Hh Hp2) as (p2 & Ha2' & S2).
  rewrite Ha1 in Ha1'. rewrite Ha2 in Ha2'. injection Ha1' as <-. injection Ha2' as <-.
  destruct (evaluate U h (interp_new a1) tb level) as [i1 x1].
  destruct (evaluate U h (interp_new a2) tb level) as [i2 x2].
  unfold eval_spec in S1, S2. cbn [fst snd root_faults faults den] in S1, S2.
  set (E := env_of U h tb) in *.
  change (cmp_faults E OpNe x y) with (cmp_faults E OpEq x y) in S2.
  destruct (cmp_faults E OpEq x y).
  { destruct S1 as (e1 & -> & _). destruct S2 as (e2 & -> & _). exact I. }
  assert (W : warns E (PCmp OpNe x y) = warns E (PCmp OpEq x y)).
  { cbn [warns cmp_bool]. do 2 f_equal. destruct (_ || _); auto.
    now destruct (eq_den (operand_kind E x) (operand_kind E y)). }
  destruct S1 as (W1 & L1 & R1), S2 as (W2 & L2 & R2). rewrite W, <- W1 in W2.
  assert (D : (cmp_den OpEq (operand_kind E x) (operand_kind E y), cmp_den OpNe (operand_kind E x) (operand_kind E y))
     = (TRUE, FALSE) \/ (cmp_den OpEq (operand_kind E x) (operand_kind E y), cmp_den OpNe (operand_kind E x) (operand_kind E y)) = (FALSE, TRUE)
     \/ (cmp_den OpEq (operand_kind E x) (operand_kind E y), cmp_den OpNe (operand_kind E x) (operand_kind E y)) = (UNDEF, UNDEF)).
  { unfold cmp_den. destruct (_ || _); auto. cbn [cmp_bool].
    destruct (eq_den (operand_kind E x) (operand_kind E y)) as [[]|]; cbn; auto. }
  destruct x1 as [r1|e1], x2 as [r2|e2]; auto.
  - split; auto. rewrite (R1 _ eq_refl), (R2 _ eq_refl). destruct D as [D|[D|D]]; injection D as -> ->; auto.
  - destruct (i_warnings i1), (i_warnings i2); try discriminate.
    + destruct L2 as [? ?]. discriminate.
    + destruct level as [z|]; [destruct (z <=? 2)|]; try discriminate. destruct L2 as [? ?]. discriminate.
  - destruct (i_warnings i1), (i_warnings i2); try discriminate.
    + destruct L1 as [? ?]. discriminate.
    + destruct level as [z|]; [destruct (z <=? 2)|]; try discriminate. destruct L1 as [? ?]. discriminate.
Qed.

(** ** C25 *)

(** Equal single values: numbers of the same exact value, equal strings, NULL. *)
Inductive same : pyval -> pyval -> Prop :=
| sa_num v w x y : as_num v = Some x -> as_num w = Some y -> related OpEq (real_of x) (real_of y) -> same v w
| sa_str s : same (VStr s) (VStr s)
| sa_none : same VNone VNone
| sa_null : same VNull VNull.

(** Values that are not collections or results. *)
Definition single (v : pyval) : Prop := hashable v = true \/ v = VNull.

Lemma py_eq_same v w : single v -> single w -> (py_eq v w = true <-> same v w).
Proof.
  assert (N : forall x y, num_eqb x y = true <-> related OpEq (real_of x) (real_of y)).
  { intros x y. unfold num_eqb. pose proof (num_cmp_spec x y) as Sp. cbn. split.
    - destruct (num_cmp x y) as [[]|]; try discriminate. auto.
    - intros (p & q & Hx & Hy & Hr). destruct (num_cmp x y) as [[]|]; auto.
      + destruct Sp as (p' & q' & Hx' & Hy' & G). apply rlt_excl in G.
        assert (p' = p) by congruence. assert (q' = q) by congruence. subst. tauto.
      + destruct Sp as (p' & q' & Hx' & Hy' & G). apply rlt_excl in G.
        assert (p' = p) by congruence. assert (q' = q) by congruence. subst. tauto.
      + destruct Sp; congruence. }
  intros Hv Hw. split.
  - destruct v, w; cbn; try discriminate; intros H;
    try (eapply sa_num; [reflexivity|reflexivity|]; now apply N);
    try (apply str_eqb_eq in H; subst); try constructor;
    try (destruct Hv as [Hv|Hv]; discriminate).
  - destruct 1 as [v w x y Hx Hy H|s| |]; auto.
    + destruct (same_sort_num v w x y Hx Hy) as [_ ->]. now apply N.
    + cbn. now apply str_eqb_eq.
Qed.

(** Operands that denote a collection, and its members. *)
Inductive members (E : env) : operand -> list pyval -> Prop :=
| me_lit l : members E (OSet l) (map atom_val l)
| me_set c n l : E c n = Some (ST_SET, VSet l) -> members E (OAtt c n) l
| me_list c n l : E c n = Some (ST_SET, VList l) -> members E (OAtt c n) l.

(** Operands that denote a single value. *)
Inductive element (E : env) : operand -> pyval -> Prop :=
| el_atom a : element E (OAtom a) (atom_val a)
| el_att c n ty v : E c n = Some (ty, v) -> fits ty v -> ty <> ST_SET -> ty <> ST_BOOL -> element E (OAtt c n) v.

Lemma members_kind E o l : members E o l -> operand_kind E o = KColl l \/ exists s, operand_kind E o = KLit s /\ l = map atom_val s.
Proof. destruct 1 as [l|c n l H|c n l H]; cbn; rewrite ?H; eauto. Qed.

Lemma element_kind E o v : element E o v -> single v /\ (operand_kind E o = KScal v \/ exists a, operand_kind E o = KAtom a /\ v = atom_val a).
Proof.
  destruct 1 as [a|c n ty v H F S B]; cbn.
  - split; eauto. destruct a; [left|left|left|right]; reflexivity.
  - rewrite H. destruct F as [z ty [->| ->]|f ty [->| ->]|b ty [->| ->]|s|l|l|t]; cbn; try congruence;
    (split; [left; reflexivity|auto]).
Qed.

Lemma atom_single l : Forall single (map atom_val l).
Proof. apply Forall_map. apply Forall_forall. intros [] _; [left|left|left|right]; reflexivity. Qed.
Lemma hashable_single l : existsb (fun v => negb (hashable v)) l = false -> Forall single l.
Proof.
  induction l as [|x l IH]; cbn; constructor.
  - left. destruct (hashable x); auto; discriminate.
  - apply IH. destruct (hashable x); auto; discriminate.
Qed.

Definition included (l m : list pyval) : Prop := forall v, In v l -> exists w, In w m /\ same v w.

Lemma member_spec v m : single v -> Forall single m -> (member v m = true <-> exists w, In w m /\ same v w).
Proof.
  intros Hv Hm. unfold member. rewrite existsb_exists. rewrite Forall_forall in Hm.
  split; intros (w & Hi & H); exists w; split; auto; apply py_eq_same in H; auto.
Qed.
Lemma subset_spec l m : Forall single l -> Forall single m -> (subset l m = true <-> included l m).
Proof.
  intros Hl Hm. unfold subset, included. rewrite forallb_forall. rewrite Forall_forall in Hl.
  split; intros H v Hv; apply member_spec; auto.
Qed.
Lemma same_sym v w : same v w -> same w v.
Proof.
  destruct 1 as [v w x y Hx Hy H|s| |]; try constructor. eapply sa_num; eauto.
  destruct H as (a & b & Ha & Hb & H). exists b, a. repeat split; auto. now apply req_sym.
Qed.
Lemma set_equal_spec l m : Forall single l -> Forall single m ->
  (set_equal l m = true <-> included l m /\ included m l).
Proof.
  intros Hl Hm. unfold set_equal. rewrite andb_true_iff, (subset_spec l m Hl Hm), forallb_forall.
  split; intros [H1 H2]; split; auto; intros v Hv.
  - specialize (H2 v Hv). apply existsb_exists in H2 as (w & Hw & H2). exists w. split; auto.
    apply same_sym. rewrite Forall_forall in Hl, Hm. apply py_eq_same; auto.
  - destruct (H2 v Hv) as (w & Hw & H). apply existsb_exists. exists w. split; auto.
    rewrite Forall_forall in Hl, Hm. apply py_eq_same; auto. now apply same_sym.
Qed.
Lemma meet_spec l m : Forall single l -> Forall single m ->
  (meet l m = true <-> exists v w, In v l /\ In w m /\ same v w).
Proof.
  intros Hl Hm. unfold meet. rewrite existsb_exists. split.
  - intros (w & Hw & H). rewrite Forall_forall in Hm. apply member_spec in H as (v & Hv & H); auto.
    exists v, w. repeat split; auto. now apply same_sym.
  - intros (v & w & Hv & Hw & H). exists w. split; auto. rewrite Forall_forall in Hm. apply member_spec; auto.
    exists v. split; auto. now apply same_sym.
Qed.

Lemma decides_bool (b : bool) P : (b = true <-> P) -> decides (Some (RV (VTri (match Some b with Some true => TRUE | Some false => FALSE | None => UNDEF end)))) P.
Proof.
  intros H. destruct b; [left; split; auto; now apply H|right; split; auto].
  intros HP. apply H in HP. discriminate.
Qed.

Lemma members_single E o l x : members E o l -> unhashable_members (operand_kind E o) = false -> x = l -> Forall single x.
Proof.
  intros Hm Hu ->. destruct (members_kind _ _ _ Hm) as [K|(s & K & ->)]; rewrite K in Hu.
  - now apply hashable_single.
  - apply atom_single.
Qed.

Section SetOps.
Variables (U : unicode) (h : heap) (text : str) (last : Z) (a : ast) (n' : Z)
    (tb : option table) (level : option Z) (it' : interp) (r : option rval).
Hypothesis uok : unicode_ok U.
Hypothesis Hh : heap_ok h.
Hypothesis Hp : parse_text U text last = Ok (a, n').
Hypothesis He : evaluate U h (interp_new a) tb level = (it', Ok r).
Notation E := (env_of U h tb).

Lemma no_fault o x y : abs (erase a) = Some (PCmp o x y) -> undefined (operand_kind E x) = false ->
  undefined (operand_kind E y) = false ->
  hash_fault o (operand_kind E x) (operand_kind E y) = false /\
  r = Some (RV (VTri (match cmp_bool o (operand_kind E x) (operand_kind E y) with Some true => TRUE | Some false => FALSE | None => UNDEF end))).
Proof.
  intros Ha Ux Uy. destruct (cmp_result _ _ _ _ _ _ _ _ _ _ _ _ _ uok Hh Hp Ha He) as [F ->].
  unfold cmp_faults, cmp_den in *. rewrite Ux, Uy in *. cbn in F. split; auto.
  apply orb_false_iff in F. tauto.
Qed.

Lemma members_defined o l : members E o l -> undefined (operand_kind E o) = false.
Proof. intros H. destruct (members_kind _ _ _ H) as [->|(s & -> & _)]; auto. Qed.

(** Set inclusion. *)
Theorem C25_subset (x y : operand) (l m : list pyval) :
  abs (erase a) = Some (PCmp OpSubset x y) -> members E x l -> members E y m ->
  decides r (included l m).
Proof.
  intros Ha Hx Hy.
  destruct (no_fault _ _ _ Ha (members_defined _ _ Hx) (members_defined _ _ Hy)) as [F ->].
  cbn [hash_fault] in F. rewrite !orb_false_iff in F. destruct F as [[[Fx Fy] _] _].
  pose proof (members_single _ _ _ _ Hx Fx eq_refl) as Sl. pose proof (members_single _ _ _ _ Hy Fy eq_refl) as Sm.
  replace (cmp_bool OpSubset (operand_kind E x) (operand_kind E y)) with (Some (subset l m)).
  - apply decides_bool. now apply subset_spec.
  - cbn [cmp_bool]. unfold subset_den.
    destruct (members_kind _ _ _ Hx) as [->|(s & -> & ->)], (members_kind _ _ _ Hy) as [->|(s' & -> & ->)]; reflexivity.
Qed.

(** Equality of two literal sets, or of two set attributes. *)
Theorem C25_equal (x y : operand) (l m : list pyval) :
  abs (erase a) = Some (PCmp OpEq x y) -> members E x l -> members E y m ->
  (exists s s', x = OSet s /\ y = OSet s') \/ (exists c n c' n', x = OAtt c n /\ y = OAtt c' n') ->
  decides r (included l m /\ included m l).
Proof.
  intros Ha Hx Hy Hk.
  destruct (no_fault _ _ _ Ha (members_defined _ _ Hx) (members_defined _ _ Hy)) as [F ->].
  cbn [hash_fault] in F. rewrite !orb_false_iff in F. destruct F as [[Fx Fy] _].
  pose proof (members_single _ _ _ _ Hx Fx eq_refl) as Sl. pose proof (members_single _ _ _ _ Hy Fy eq_refl) as Sm.
  replace (cmp_bool OpEq (operand_kind E x) (operand_kind E y)) with (Some (set_equal l m)).
  - apply decides_bool. now apply set_equal_spec.
  - destruct Hk as [(s & s' & -> & ->)|(c & n & c' & k & -> & ->)].
    + inversion Hx; inversion Hy; subst. reflexivity.
    + inversion Hx as [|c1 k1 l1 Hl|c1 k1 l1 Hl]; inversion Hy as [|c2 k2 l2 Hm|c2 k2 l2 Hm]; subst;
      cbn [operand_kind]; rewrite Hl, Hm; reflexivity.
Qed.

(** An attribute is never equal or unequal to a literal set. *)
Theorem C25_attribute_literal (o : cmp) (x y : operand) (c : cat) (n : str) (s : list atom) :
  abs (erase a) = Some (PCmp o x y) -> o = OpEq \/ o = OpNe ->
  (x = OAtt c n /\ y = OSet s) \/ (x = OSet s /\ y = OAtt c n) ->
  r = Some (RV (VTri UNDEF)).
Proof.
  intros Ha Ho Hxy. destruct (cmp_result _ _ _ _ _ _ _ _ _ _ _ _ _ uok Hh Hp Ha He) as [_ ->].
  do 3 f_equal. unfold cmp_den.
  assert (K : eq_den (operand_kind E x) (operand_kind E y) = None).
  { pose proof (att_kind_att (E c n)) as K.
    destruct Hxy as [[-> ->]|[-> ->]]; cbn [operand_kind]; destruct (att_kind (E c n)); try destruct K; reflexivity. }
  destruct (_ || _); auto. destruct Ho as [->| ->]; cbn [cmp_bool]; now rewrite K.
Qed.

(** A collection IN a collection: they have a common member. *)
Theorem C25_in_set (x y : operand) (l m : list pyval) :
  abs (erase a) = Some (PCmp OpIn x y) -> members E x l -> members E y m ->
  decides r (exists v w, In v l /\ In w m /\ same v w).
Proof.
  intros Ha Hx Hy.
  destruct (no_fault _ _ _ Ha (members_defined _ _ Hx) (members_defined _ _ Hy)) as [F ->].
  cbn [hash_fault] in F. rewrite !orb_false_iff in F. destruct F as [[Fx Fy] _].
  pose proof (members_single _ _ _ _ Hx Fx eq_refl) as Sl. pose proof (members_single _ _ _ _ Hy Fy eq_refl) as Sm.
  replace (cmp_bool OpIn (operand_kind E x) (operand_kind E y)) with (Some (meet l m)).
  - apply decides_bool. now apply meet_spec.
  - cbn [cmp_bool]. unfold in_den.
    destruct (members_kind _ _ _ Hx) as [->|(s & -> & ->)], (members_kind _ _ _ Hy) as [->|(s' & -> & ->)]; reflexivity.
Qed.

(** A single value IN a collection: membership. *)
Theorem C25_in_element (x y : operand) (v : pyval) (m : list pyval) :
  abs (erase a) = Some (PCmp OpIn x y) -> element E x v -> members E y m ->
  decides r (exists w, In w m /\ same v w).
Proof.
  intros Ha Hx Hy. apply element_kind in Hx as [Sv Kx].
  assert (Ux : undefined (operand_kind E x) = false) by (destruct Kx as [->|(s & -> & _)]; auto).
  destruct (no_fault _ _ _ Ha Ux (members_defined _ _ Hy)) as [F ->].
  cbn [hash_fault] in F. rewrite !orb_false_iff in F. destruct F as [[Fx Fy] _].
  pose proof (members_single _ _ _ _ Hy Fy eq_refl) as Sm.
  replace (cmp_bool OpIn (operand_kind E x) (operand_kind E y)) with (Some (member v m)).
  - apply decides_bool. now apply member_spec.
  - cbn [cmp_bool]. unfold in_den.
    destruct Kx as [->|(s & -> & ->)], (members_kind _ _ _ Hy) as [->|(s' & -> & ->)]; reflexivity.
Qed.

End SetOps.

(** ** C26 *)

(** ASCII names that differ at most in letter case. *)
Definition same_name (a b : str) : Prop :=
  is_ascii a = true /\ is_ascii b = true /\ map lower_c a = map lower_c b.
Inductive same_operand : operand -> operand -> Prop :=
| so_same o : same_operand o o
| so_att c m n : same_name m n -> same_operand (OAtt c m) (OAtt c n).
Inductive recased : pol -> pol -> Prop :=
| rc_const t : recased (PConst t) (PConst t)
| rc_att c m n : same_name m n -> recased (PAtt c m) (PAtt c n)
| rc_cmp o l l' r r' : same_operand l l' -> same_operand r r' -> recased (PCmp o l r) (PCmp o l' r')
| rc_not p p' : recased p p' -> recased (PNot p) (PNot p')
| rc_and p p' q q' : recased p p' -> recased q q' -> recased (PAnd p q) (PAnd p' q')
| rc_or p p' q q' : recased p p' -> recased q q' -> recased (POr p q) (POr p' q').

Lemma same_name_lookup U tb c m n : same_name m n ->
  st_lookup U tb (cat_prefix c ++ m) = st_lookup U tb (cat_prefix c ++ n).
Proof.
  intros (Am & An & E). unfold st_lookup. f_equal. unfold py_lower, is_ascii in *. rewrite !forallb_app, Am, An.
  assert (P : forallb asc (cat_prefix c) = true) by (destruct c; reflexivity). rewrite P. cbn.
  now rewrite !map_app, E.
Qed.
Lemma same_name_env U h tb c m n : same_name m n -> env_of U h tb c m = env_of U h tb c n.
Proof. intros H. unfold env_of, table_env. now rewrite (same_name_lookup U _ c m n H). Qed.

Lemma same_operand_kind U h tb x y : same_operand x y ->
  operand_kind (env_of U h tb) x = operand_kind (env_of U h tb) y /\ zero_operand x = zero_operand y /\
  operand_warns (env_of U h tb) x = operand_warns (env_of U h tb) y.
Proof.
  destruct 1 as [o|c m n H]; auto. cbn. unfold att_warns. now rewrite (same_name_env U h tb c m n H).
Qed.

Lemma recased_same U h tb p q : recased p q ->
  let E := env_of U h tb in
  den E p = den E q /\ faults E p = faults E q /\ root_faults E p = root_faults E q /\ warns E p = warns E q.
Proof.
  cbn zeta. set (E := env_of U h tb).
  induction 1 as [t|c m n Hn|o l l' r r' Hl Hr|p p' _ (D & F & _ & W)|p p' q q' _ (D & F & _ & W) _ (D' & F' & _ & W')
    |p p' q q' _ (D & F & _ & W) _ (D' & F' & _ & W')]; auto.
  - cbn. unfold att_warns, E. now rewrite (same_name_env U h tb c m n Hn).
  - apply (same_operand_kind U h tb) in Hl as (K & Z & W). apply (same_operand_kind U h tb) in Hr as (K' & Z' & W').
    fold E in K, K', W, W'. cbn. unfold cmp_faults. now rewrite K, K', Z, Z', W, W'.
  - cbn. now rewrite D, F, W.
  - cbn. now rewrite D, F, W, D', F', W'.
  - cbn. now rewrite D, F, W, D', F', W'.
Qed.

(** Policies that differ only in the case of attribute names evaluate alike. *)
Theorem C26_case (U : unicode) (h : heap) (text1 text2 : str) (last1 last2 : Z) (a1 a2 : ast) (n1 n2 : Z)
    (tb : option table) (level : option Z) (p1 p2 : pol) :
  unicode_ok U -> heap_ok h ->
  parse_text U text1 last1 = Ok (a1, n1) -> parse_text U text2 last2 = Ok (a2, n2) ->
  abs (erase a1) = Some p1 -> abs (erase a2) = Some p2 -> recased p1 p2 ->
  match evaluate U h (interp_new a1) tb level, evaluate U h (interp_new a2) tb level with
  | (i1, Ok r1), (i2, Ok r2) => r1 = r2 /\ map w_kind (i_warnings i1) = map w_kind (i_warnings i2)
  | (_, Err _), (_, Err _) => True
  | _, _ => False
  end.
Proof.
  intros uok Hh Hp1 Hp2 Ha1 Ha2 Hr.
  destruct (first_eval U h text1 last1 a1 n1 tb level uok Hh Hp1) as (q1 & Ha1' & S1).
  destruct (first_eval U h text2 last2 a2 n2 tb level uok Hh Hp2) as (q2 & Ha2' & S2).
  rewrite Ha1 in Ha1'. rewrite Ha2 in Ha2'. injection Ha1' as <-. injection Ha2' as <-.
  destruct (evaluate U h (interp_new a1) tb level) as [i1 x1].
  destruct (evaluate U h (interp_new a2) tb level) as [i2 x2].
  destruct (recased_same U h tb p1 p2 Hr) as (D & F & RF & W).
  unfold eval_spec in S1, S2. cbn [fst snd] in S1, S2. rewrite <- D, <- F, <- RF, <- W in S2.
  destruct (root_faults (env_of U h tb) p1).
  { destruct S1 as (e1 & -> & _). destruct S2 as (e2 & -> & _). exact I. }
  destruct S1 as (W1 & L1 & R1), S2 as (W2 & L2 & R2). rewrite <- W1 in W2.
  destruct x1 as [r1|e1], x2 as [r2|e2]; auto.
  - split; auto. specialize (R1 _ eq_refl). specialize (R2 _ eq_refl).
    destruct (faults (env_of U h tb) p1); [|congruence].
    destruct R1 as (c1 & m1 & l1 & -> & -> & K1). destruct R2 as (c2 & m2 & l2 & -> & -> & K2).
    inversion Hr as [|c m n Hn| | | |]; subst. rewrite (same_name_lookup U _ _ _ _ Hn) in K1. congruence.
  - destruct (i_warnings i1), (i_warnings i2); try discriminate.
    + destruct L2 as [? ?]. discriminate.
    + destruct level as [z|]; [destruct (z <=? 2)|]; try discriminate. destruct L2 as [? ?]. discriminate.
  - destruct (i_warnings i1), (i_warnings i2); try discriminate.
    + destruct L1 as [? ?]. discriminate.
    + destruct level as [z|]; [destruct (z <=? 2)|]; try discriminate. destruct L1 as [? ?]. discriminate.
Qed.

(** ** C27 *)

(** The second evaluation of a tree, with any other table over the same Symbol
    objects, gives the "mixed" meaning of EvalSpec. *)
Theorem C27_second_evaluation (U : unicode) (h : heap) (text : str) (last : Z) (a : ast) (n' : Z)
    (tb1 tb2 : option table) (level1 level2 : option Z) (it1 it2 : interp) (r1 : option rval)
    (x2 : res (option rval)) :
  unicode_ok U -> heap_ok h -> parse_text U text last = Ok (a, n') ->
  evaluate U h (interp_new a) tb1 level1 = (it1, Ok r1) ->
  evaluate U h it1 tb2 level2 = (it2, x2) ->
  exists p, abs (erase a) = Some p /\
    if root_refaults (env_of U h tb1) (env_of U h tb2) p then exists e, x2 = Err e
    else map w_kind (i_warnings it2) =
           warns (env_of U h tb1) p ++ root_rewarns (env_of U h tb1) (env_of U h tb2) p /\
         (i_warnings it2 = [] \/ (exists z, level2 = Some z /\ 2 < z) -> exists r, x2 = Ok r) /\
         forall r, x2 = Ok r ->
           match p with
           | PAtt c n => exists rv, r = Some rv /\ shows h rv (att_kind (env_of U h tb2 c n))
           | _ => r = Some (RV (VTri (root_reden (env_of U h tb1) (env_of U h tb2) p)))
           end.
Proof.
  intros uok Hh Hp H1 H2.
  destruct (evaluate_settled _ _ _ _ _ _ _ _ _ _ uok Hh Hp H1) as [Hs Ee].
  destruct (first_eval U h text last a n' tb1 level1 uok Hh Hp) as (p & Ha & S1). rewrite H1 in S1.
  unfold eval_spec in S1. cbn [fst snd] in S1.
  exists p. split; auto.
  destruct (root_faults (env_of U h tb1) p) eqn:RF; [destruct S1 as (? & ? & _); discriminate|].
  destruct S1 as (W1 & _ & _).
  assert (Ha' : abs (erase (i_ast it1)) = Some p) by now rewrite Ee.
  destruct (revisit_pol U h (table_of tb1) (table_of tb2) Hh (i_ast it1) p Hs Ha') as [_ R].
  unfold evaluate in H2. fold (table_of tb2) in H2.
  destruct (eval_node U h (table_of tb2) (i_ast it1)) as [[a2 ws] [x|]]; unfold root_again in R.
  { injection H2 as <- <-. 
    assert (root_refaults (env_of U h tb1) (env_of U h tb2) p = true) as ->; [|eauto].
    destruct p; try exact R; [reflexivity|]. destruct R as [[=] _]. }
  assert (P : root_refaults (env_of U h tb1) (env_of U h tb2) p = false /\
    map w_kind ws = root_rewarns (env_of U h tb1) (env_of U h tb2) p /\
    match p with
    | PAtt c n => exists rv, n_result a2 = Some rv /\ shows h rv (att_kind (env_of U h tb2 c n))
    | _ => n_result a2 = Some (RV (VTri (root_reden (env_of U h tb1) (env_of U h tb2) p)))
    end).
  { destruct p; try exact R; [now destruct R|]. destruct R as (_ & R & R2). auto. }
  destruct P as (-> & W2 & R2). cbn [i_warnings] in H2.
  assert (Wt : map w_kind (i_warnings it1 ++ ws) =
    warns (env_of U h tb1) p ++ root_rewarns (env_of U h tb1) (env_of U h tb2) p) by now rewrite map_app, W1, W2.
  assert (Rt : forall r, Ok (n_result a2) = Ok r ->
           match p with
           | PAtt c n => exists rv, r = Some rv /\ shows h rv (att_kind (env_of U h tb2 c n))
           | _ => r = Some (RV (VTri (root_reden (env_of U h tb1) (env_of U h tb2) p)))
           end).
  { intros r [= <-]. exact R2. }
  destruct (i_warnings it1 ++ ws) as [|w rest].
  - injection H2 as <- <-. cbn [i_warnings]. repeat split; eauto.
  - unfold warn_level in H2. destruct level2 as [z|]; [destruct (z <=? 2) eqn:Ez|]; injection H2 as <- <-; cbn [i_warnings];
    (split; [exact Wt|]); (split; [|exact Rt || (intros r [=])]); intros Hl; eauto;
    destruct Hl as [[=]|(z' & [= <-] & Hz)]; lia.
Qed.

(** An AND that has evaluated to TRUE stays TRUE whatever table, and whatever changes
    to the Symbol objects, come later, and no warning is added. *)
Theorem C27_true_for_ever (U : unicode) (h h2 : heap) (text : str) (last : Z) (a : ast) (n' : Z)
    (tb1 tb2 : option table) (level1 level2 : option Z) (it1 : interp) (p q : pol) :
  unicode_ok U -> heap_ok h -> parse_text U text last = Ok (a, n') ->
  abs (erase a) = Some (PAnd p q) ->
  evaluate U h (interp_new a) tb1 level1 = (it1, Ok (Some (RV (VTri TRUE)))) ->
  let '(it2, x2) := evaluate U h2 it1 tb2 level2 in
  i_warnings it2 = i_warnings it1 /\ n_result (i_ast it2) = Some (RV (VTri TRUE)) /\
  (i_warnings it1 = [] \/ (exists z, level2 = Some z /\ 2 < z) -> x2 = Ok (Some (RV (VTri TRUE)))).
Proof.
  intros uok Hh Hp Ha H1.
  destruct (evaluate_settled _ _ _ _ _ _ _ _ _ _ uok Hh Hp H1) as [Hs Ee].
  assert (Ha' : abs (erase (i_ast it1)) = Some (PAnd p q)) by now rewrite Ee.
  assert (Hr : n_result (i_ast it1) = Some (RV (VTri TRUE))).
  { apply evaluate_ok in H1 as (ws & _ & _ & H). auto. }
  destruct (i_ast it1) as [c t i r ks] eqn:Ei. cbn [n_result] in Hr. subst r.
  destruct (Hs _ (sub_here _)) as [Hn _]. destruct (Hn _ Ha') as [Hf Hn2]. cbn [n_result] in Hn2.
  injection Hn2 as Hn2. symmetry in Hn2.
  cbn [erase] in Ha'. apply abs_inv in Ha' as [(-> & _ & x & _ & H)|[(k & s & _ & _ & _ & H)|[(-> & k & q' & _ & _ & H)|
      [(-> & lt & rt & o & x & y & _ & _ & _ & _ & H)|(-> & lt & rt & x & y & Hks & Hx & Hy & Hp')]]]]; try discriminate H.
  destruct Hp' as [[Ht [= <- <-]]|[_ [=]]].
  destruct ks as [|l [|rk [|]]]; try discriminate. injection Hks as <- <-.
  pose proof (settled_kids _ _ _ _ _ _ _ _ Hs) as Hk. inversion Hk as [|? ? Hl Hk2]; subst. inversion Hk2 as [|? ? Hrk _]; subst.
  assert (T : forall nd p0, settled U h (table_of tb1) nd -> abs (erase nd) = Some p0 ->
     faults (table_env U h (table_of tb1)) p0 = false ->
     den (table_env U h (table_of tb1)) p0 = TRUE -> n_result nd = Some (RV (VTri TRUE))).
  { intros nd p0 S A Ff D. destruct (S _ (sub_here _)) as [N O]. specialize (N _ A). rewrite <- D.
    destruct p0 as [t00|c n|o l0 r0|p0|p0 q0|p0 q0]; try apply N. destruct nd as [c0 t0 i0 r0 ks0].
    assert (A2 : abs_operand (erase (Node c0 t0 i0 r0 ks0)) = Some (OAtt c n)).
    { cbn [erase] in A |- *. apply abs_inv in A as [(-> & _ & x & _ & H)|[(k & s & Hc & Ht0 & -> & H)|[(-> & k & q' & _ & _ & H)|
      [(-> & lt & rt & o & x & y & _ & _ & _ & _ & H)|(-> & lt & rt & x & y & _ & _ & _ & [[_ H]|[_ H]])]]]]; try discriminate H.
      injection H as -> ->. destruct t0 as [ty tp v]. cbn in Ht0. subst v. destruct c0; try discriminate; injection Hc as <-; reflexivity. }
    destruct (O _ A2) as (_ & rv & Hrv & Hsh). rewrite Hrv. cbn [operand_kind den] in *.
    destruct Hsh; try discriminate; auto. }
  cbn [faults den] in Hf, Hn2. apply orb_false_iff in Hf as [Fl Fr].
  rewrite <- kand_ok in Hn2.
  assert (Dl : den (table_env U h (table_of tb1)) p = TRUE /\ den (table_env U h (table_of tb1)) q = TRUE).
  { destruct (den (table_env U h (table_of tb1)) p), (den (table_env U h (table_of tb1)) q); try discriminate; auto. }
  destruct Dl as [Dl Dr]. pose proof (T _ _ Hl Hx Fl Dl) as Rl. pose proof (T _ _ Hrk Hy Fr Dr) as Rr.
  unfold evaluate. fold (table_of tb2). rewrite Ei.
  assert (En : eval_node U h2 (table_of tb2) (Node CBoolOp t i (Some (RV (VTri TRUE))) [l; rk]) =
     (Node CBoolOp t i (Some (RV (VTri TRUE))) [l; rk], [], None)).
  { rewrite eval_node_unfold, !eval_kids_cons. unfold visit. rewrite Rl, Rr. cbn [rtruthy truthy tri_truth tri_eqb].
    cbn [eval_kids eval_self]. unfold eval_bool_op. rewrite Rl, Rr, Ht. reflexivity. }
  rewrite En. cbn [i_warnings]. rewrite app_nil_r.
  destruct (i_warnings it1) as [|w rest] eqn:Ew; [cbn; auto|].
  unfold warn_level. destruct level2 as [z|]; [destruct (z <=? 2) eqn:Ez|]; cbn; repeat split; auto;
  intros [[=]|(z' & [= <-] & Hz)]; lia.
Qed.

(** Evaluating again with the same table gives the same result. *)
Lemma mixed_same E c n : mixed_env E E c n = E c n.
Proof. unfold mixed_env. now destruct (kept _). Qed.
Lemma mixed_same_kind E o : operand_kind (mixed_env E E) o = operand_kind E o.
Proof. destruct o; auto. cbn. now rewrite mixed_same. Qed.
Lemma reden_same E p : reden E E p = den E p.
Proof.
  induction p as [t|c n|o l r|p IH|p IHp q IHq|p IHp q IHq]; cbn [reden].
  - cbn. now destruct t.
  - rewrite mixed_same. cbn [den]. now destruct (att_kind (E c n)) as [|[]| | | |].
  - rewrite !mixed_same_kind. cbn [den]. now destruct (cmp_den _ _ _).
  - rewrite IH. cbn [den]. now destruct (knot _).
  - rewrite IHp, IHq. cbn [den]. now destruct (kand _ _).
  - rewrite IHp, IHq. cbn [den]. now destruct (kor _ _).
Qed.
Lemma refaults_same E p : faults E p = false -> refaults E E p = false.
Proof.
  induction p as [t|c n|o l r|p IH|p IHp q IHq|p IHp q IHq]; cbn [refaults faults]; intros H.
  - destruct t; try discriminate. reflexivity.
  - rewrite mixed_same. cbn [den]. destruct (att_kind (E c n)) as [|[]| | | |]; auto.
  - unfold cmp_faults in *. rewrite !mixed_same_kind. now destruct (den E _).
  - rewrite (IH H). now destruct (den E _).
  - apply orb_false_iff in H as [H1 H2]. rewrite (IHp H1), (IHq H2). now destruct (den E _).
  - apply orb_false_iff in H as [H1 H2]. rewrite (IHp H1), (IHq H2). now destruct (den E _).
Qed.
Lemma rewarns_same E p : warns E p = [] -> root_rewarns E E p = [].
Proof.
  assert (O : forall o, operand_warns E o = [] -> operand_rewarns E E o = []).
  { intros [a|l|c n]; auto. cbn. now destruct (kept _). }
  assert (C : forall o l r, warns E (PCmp o l r) = [] -> cmp_rewarns E E o l r = []).
  { intros o l r H. cbn [warns] in H. apply app_eq_nil in H as [H1 H2]. apply app_eq_nil in H2 as [H2 H3].
    unfold cmp_rewarns. rewrite !mixed_same_kind, (O _ H1), (O _ H2). exact H3. }
  assert (R : forall q, warns E q = [] -> rewarns E E q = []).
  { induction q as [t|c n|o l r|p' IH|p' IHp q IHq|p' IHp q IHq]; intros H; cbn [rewarns].
    - now destruct (den E _).
    - rewrite (O (OAtt c n) H). now destruct (den E _).
    - rewrite (C _ _ _ H). now destruct (den E _).
    - rewrite (IH H). now destruct (den E _).
    - cbn [warns] in H. apply app_eq_nil in H as [H1 H2]. rewrite (IHp H1), (IHq H2). now destruct (den E _).
    - cbn [warns] in H. apply app_eq_nil in H as [H1 H2]. rewrite (IHp H1), (IHq H2). now destruct (den E _). }
  destruct p as [t|c n|o l r|p' |p' q|p' q]; intros H; cbn [root_rewarns]; auto;
  cbn [warns] in H; apply app_eq_nil in H as [H1 H2]; now rewrite (R _ H1), (R _ H2).
Qed.

Lemma eval_att_old U h tb c t o1 o2 r ws : eval_att U h tb c t o1 = (r, ws, None) -> eval_att U h tb c t o2 = (r, ws, None).
Proof.
  unfold eval_att. destruct (att_to_symbol_name c t) as [s|]; [|discriminate]. auto.
Qed.

Theorem C27_same_table (U : unicode) (h : heap) (text : str) (last : Z) (a : ast) (n' : Z)
    (tb : option table) (level : option Z) (it1 : interp) (r : option rval) :
  unicode_ok U -> heap_ok h -> parse_text U text last = Ok (a, n') ->
  evaluate U h (interp_new a) tb level = (it1, Ok r) ->
  snd (evaluate U h it1 tb level) = Ok r.
Proof.
  intros uok Hh Hp H1. destruct (evaluate U h it1 tb level) as [it2 x2] eqn:H2. cbn [snd].
  destruct (C27_second_evaluation _ _ _ _ _ _ _ _ _ _ _ _ _ _ uok Hh Hp H1 H2) as (p & Ha & Q).
  destruct (first_eval U h text last a n' tb level uok Hh Hp) as (p' & Ha' & S). rewrite H1 in S.
  rewrite Ha in Ha'. injection Ha' as <-. unfold eval_spec in S. cbn [fst snd] in S.
  destruct (root_faults (env_of U h tb) p) eqn:RF; [destruct S as (? & ? & _); discriminate|].
  set (E := env_of U h tb) in *. destruct S as (W1 & L1 & R1). specialize (R1 _ eq_refl).
  assert (RRF : root_refaults E E p = false).
  { destruct p as [t|c n|o l r0|q|q q'|q q']; auto; cbn [root_faults faults root_refaults] in *.
    - unfold cmp_faults in *. now rewrite !mixed_same_kind.
    - now apply refaults_same.
    - apply orb_false_iff in RF as [F1 F2]. now rewrite (refaults_same _ _ F1), (refaults_same _ _ F2).
    - apply orb_false_iff in RF as [F1 F2]. now rewrite (refaults_same _ _ F1), (refaults_same _ _ F2). }
  rewrite RRF in Q. destruct Q as (W2 & L2 & R2).
  assert (Hx : exists r2, x2 = Ok r2).
  { apply L2. destruct (i_warnings it1) as [|w ws].
    - left. assert (Hw : warns E p = []) by now rewrite <- W1. rewrite Hw, (rewarns_same _ _ Hw) in W2.
      now apply warns_nil in W2.
    - right. destruct level as [z|]; [|discriminate]. destruct (z <=? 2) eqn:Ez; [discriminate|].
      exists z. split; auto. lia. }
  destruct Hx as [r2 ->]. f_equal. specialize (R2 _ eq_refl).
  assert (Den : forall q, (match q with PAtt _ _ => False | _ => True end) -> root_reden E E q = den E q).
  { intros [t|c n|o l r0|q|q q'|q q'] Hq; auto; cbn [root_reden den]; rewrite ?reden_same, ?mixed_same_kind; auto. }
  destruct p as [t|c n|o l r0|q|q q'|q q'].
  2:{ (* a bare attribute is looked up again *)
    apply evaluate_ok in H2 as (ws2 & H2 & _ & ->). apply evaluate_ok in H1 as (ws1 & H1 & _ & ->).
    cbn [i_ast interp_new] in H1. destruct a as [c0 t0 i0 r0 ks0]. cbn [erase] in Ha.
    apply abs_inv in Ha as [(-> & _ & x & _ & H)|[(k & s & Hc & Ht0 & Hks & H)|[(-> & k & q' & _ & _ & H)|
      [(-> & lt & rt & o & x & y & _ & _ & _ & _ & H)|(-> & lt & rt & x & y & _ & _ & _ & [[_ H]|[_ H]])]]]]; try discriminate H.
    destruct ks0; [|discriminate].
    rewrite eval_node_unfold in H1. cbn [eval_kids] in H1. rewrite (att_self U h _ c0 k) in H1 by auto.
    destruct (eval_att_ok U h (table_of tb) c0 t0 r0 k s Hc Ht0) as (rv & w & Ea & _ & _). rewrite Ea in H1.
    injection H1 as Hi _. rewrite <- Hi in H2 |- *. rewrite eval_node_unfold in H2. cbn [eval_kids] in H2. rewrite (att_self U h _ c0 k) in H2 by auto.
    rewrite (eval_att_old U h _ _ _ _ (Some rv) _ _ Ea) in H2. injection H2 as Hi2 _. now rewrite <- Hi2. }
  - rewrite Den in R2 by exact I. discriminate RF.
  - rewrite Den in R2 by exact I. cbn [root_faults] in RF. rewrite RF in R1. congruence.
  - rewrite Den in R2 by exact I. cbn [root_faults] in RF. rewrite RF in R1. congruence.
  - rewrite Den in R2 by exact I. cbn [root_faults] in RF. rewrite RF in R1. congruence.
  - rewrite Den in R2 by exact I. cbn [root_faults] in RF. rewrite RF in R1. congruence.
Qed.

(** ** C28 *)

(** Level left out: TypeError exactly when there is a warning. *)
Theorem C28_no_level (U : unicode) (h : heap) (text : str) (last : Z) (a : ast) (n' : Z) (tb : option table) (p : pol) :
  unicode_ok U -> heap_ok h -> parse_text U text last = Ok (a, n') ->
  abs (erase a) = Some p -> root_faults (env_of U h tb) p = false ->
  (snd (evaluate U h (interp_new a) tb None) = Err EType <-> warns (env_of U h tb) p <> []) /\
  (warns (env_of U h tb) p = [] -> exists r, snd (evaluate U h (interp_new a) tb None) = Ok r).
Proof.
  intros uok Hh Hp Ha RF. destruct (first_eval U h text last a n' tb None uok Hh Hp) as (p' & Ha' & S).
  rewrite Ha in Ha'. injection Ha' as <-. unfold eval_spec in S. rewrite RF in S. destruct S as (W & L & _).
  destruct (i_warnings _) as [|w ws].
  - destruct L as [r ->]. rewrite <- W. split; eauto. split; [intros [=]|]. intros H. now destruct H.
  - rewrite L, <- W. split; [|intros [=]]. split; auto. discriminate.
Qed.

(** Level ERROR or CRITICAL: never because of a warning; a level up to WARN: the first
    warning is raised. *)
Theorem C28_levels (U : unicode) (h : heap) (text : str) (last : Z) (a : ast) (n' : Z) (tb : option table) (p : pol) (z : Z) :
  unicode_ok U -> heap_ok h -> parse_text U text last = Ok (a, n') ->
  abs (erase a) = Some p -> root_faults (env_of U h tb) p = false ->
  let '(it', x) := evaluate U h (interp_new a) tb (Some z) in
  (2 < z \/ warns (env_of U h tb) p = [] -> exists r, x = Ok r) /\
  (z <= 2 -> warns (env_of U h tb) p <> [] ->
     exists w ws, i_warnings it' = w :: ws /\ x = Err (EInterpWarning (w_pos w))).
Proof.
  intros uok Hh Hp Ha RF. destruct (first_eval U h text last a n' tb (Some z) uok Hh Hp) as (p' & Ha' & S).
  rewrite Ha in Ha'. injection Ha' as <-. unfold eval_spec in S. rewrite RF in S.
  destruct (evaluate U h (interp_new a) tb (Some z)) as [it' x]. cbn [fst snd] in S. destruct S as (W & L & _).
  destruct (i_warnings it') as [|w ws].
  - destruct L as [r ->]. split; eauto. intros _ H. now rewrite <- W in H.
  - destruct (z <=? 2) eqn:Ez; split; eauto.
    + intros [H|H]; [lia|]. rewrite <- W in H. discriminate.
    + intros H. lia.
Qed.

(** Warnings stay with the Interpreter: once there is one, no later evaluation with the
    level left out, or a level up to WARN, returns; whatever the tree and the table. *)
Theorem C28_sticky (U : unicode) (h : heap) (it : interp) (tb : option table) (level : option Z) :
  i_warnings it <> [] -> level = None \/ (exists z, level = Some z /\ z <= 2) ->
  exists e, snd (evaluate U h it tb level) = Err e.
Proof.
  intros Hw Hl. destruct (evaluate U h it tb level) as [it' [r|e]] eqn:E; cbn; eauto. exfalso.
  pose proof E as E2. apply evaluate_ok in E2 as (ws & E2 & Hw' & _). unfold evaluate in E. fold (table_of tb) in E.
  rewrite E2 in E. cbn [i_warnings] in E. destruct (i_warnings it) as [|w rest]; [now destruct Hw|].
  cbn [app] in E. unfold warn_level in E. destruct Hl as [->|(z & -> & Hz)]; [discriminate|].
  apply Z.leb_le in Hz. rewrite Hz in E. discriminate.
Qed.

(** ** C57 *)

(** The warnings of a first evaluation, in order. *)
Theorem C57_warnings (U : unicode) (h : heap) (text : str) (last : Z) (a : ast) (n' : Z)
    (tb : option table) (level : option Z) (p : pol) :
  unicode_ok U -> heap_ok h -> parse_text U text last = Ok (a, n') ->
  abs (erase a) = Some p -> root_faults (env_of U h tb) p = false ->
  map w_kind (i_warnings (fst (evaluate U h (interp_new a) tb level))) = warns (env_of U h tb) p.
Proof.
  intros uok Hh Hp Ha RF. destruct (first_eval U h text last a n' tb level uok Hh Hp) as (p' & Ha' & S).
  rewrite Ha in Ha'. injection Ha' as <-. unfold eval_spec in S. rewrite RF in S. tauto.
Qed.

(** ** Concrete cases *)

Definition ex_sym (n : str) (t : ttype) (s : symtype) (v : pyval) : symbol :=
  symbol_new ascii_only n (Some t) (Some s) v.
Definition ex_heap : heap :=
  [ex_sym (lit "age") USR_ATT ST_INT (VInt 30);
   ex_sym (lit "admin") USR_ATT ST_BOOL (VTri TRUE);
   ex_sym (lit "groups") USR_ATT ST_SET (VSet [VStr (lit "dev"); VStr (lit "ops")]);
   ex_sym (lit "level") OBJ_ATT ST_FLOAT (VFloat (S754_finite false 5 (-1)));
   ex_sym (lit "tags") OBJ_ATT ST_SET (VList [VStr (lit "ops"); VInt 7]);
   ex_sym (lit "admin") USR_ATT ST_BOOL (VTri FALSE);
   ex_sym (lit "age") USR_ATT ST_INT (VInt 10);
   ex_sym (lit "odd") ENV_ATT ST_INT (VStr (lit "x"));
   ex_sym (lit "none") ENV_ATT ST_INT VNone;
   ex_sym (lit "bad") USR_ATT ST_SET (VList [VList []])].
Definition ex_table : table :=
  [(lit "user.age", 0%nat); (lit "user.admin", 1%nat); (lit "user.groups", 2%nat); (lit "object.level", 3%nat);
   (lit "object.tags", 4%nat); (lit "env.odd", 7%nat); (lit "env.none", 8%nat); (lit "user.bad", 9%nat)].
(** Another user: not an administrator, and younger. *)
Definition ex_table2 : table := [(lit "user.age", 6%nat); (lit "user.admin", 5%nat)].

Example ex_heap_ok : heap_ok ex_heap.
Proof. repeat (constructor; [cbn; auto; try (repeat constructor; discriminate)|]). constructor. Qed.

(** Parse, then evaluate once with the ERROR level: the result and the kinds of the warnings. *)
Definition ex_run (text : str) (tb : option table) (level : option Z) : res (res (option rval) * list wkind) :=
  match parse_text ascii_only text 0 with
  | Ok (a, _) => let '(i, x) := evaluate ascii_only ex_heap (interp_new a) tb level in Ok (x, map w_kind (i_warnings i))
  | Err e => Err e
  end.
(** Parse, then evaluate with one table and again with another. *)
Definition ex_twice (text : str) (tb1 tb2 : option table) : res (res (option rval) * res (option rval)) :=
  match parse_text ascii_only text 0 with
  | Ok (a, _) => let '(i, x) := evaluate ascii_only ex_heap (interp_new a) tb1 (Some 3) in
                 Ok (x, snd (evaluate ascii_only ex_heap i tb2 (Some 3)))
  | Err e => Err e
  end.
Definition tv (t : tri) : res (option rval) := Ok (Some (RV (VTri t))).

(** C19, C20, C22, C28, C57. *)
Example ex_true : ex_run (lit "user.age >= 18 AND (user.admin OR env.missing = 1)") (Some ex_table) (Some 3)
  = Ok (tv TRUE, [WUnknownAtt]).
Proof. vm_compute. reflexivity. Qed.
Example ex_undef : ex_run (lit "user.age < 18 OR NOT (env.missing = 1)") (Some ex_table) (Some 3)
  = Ok (tv UNDEF, [WUnknownAtt]).
Proof. vm_compute. reflexivity. Qed.
Example ex_symbol : ex_run (lit "user.age") (Some ex_table) None = Ok (Ok (Some (RSym 0%nat)), []).
Proof. vm_compute. reflexivity. Qed.
Example ex_zero : ex_run (lit "user.admin OR user.age > 0") (Some ex_table) (Some 3) = Ok (Err (EInterp 25), []).
Proof. vm_compute. reflexivity. Qed.
Example ex_false : ex_run (lit "user.admin OR false") (Some ex_table) (Some 3) = Ok (Err (EInterp 14), []).
Proof. vm_compute. reflexivity. Qed.
Example ex_not_boolean : ex_run (lit "user.admin OR user.age") (Some ex_table) (Some 3) = Ok (Err (EInterp 11), []).
Proof. vm_compute. reflexivity. Qed.
Example ex_unhashable : ex_run (lit "user.groups SUBSET user.bad") (Some ex_table) (Some 3) = Ok (Err EType, []).
Proof. vm_compute. reflexivity. Qed.
Example ex_no_level : ex_run (lit "user.admin OR env.missing = 1") (Some ex_table) None = Ok (Err EType, [WUnknownAtt]).
Proof. vm_compute. reflexivity. Qed.
Example ex_warn_level : ex_run (lit "user.admin OR env.missing = 1") (Some ex_table) (Some 2)
  = Ok (Err (EInterpWarning 14), [WUnknownAtt]).
Proof. vm_compute. reflexivity. Qed.

(** C21: an ill-typed and an empty attribute. *)
Example ex_odd : ex_run (lit "env.odd = 1 OR env.none = 1") (Some ex_table) (Some 3)
  = Ok (tv UNDEF, [WBadType; WNoValue; WBadType]).
Proof. vm_compute. reflexivity. Qed.
Example ex_unusable : unusable (env_of ascii_only ex_heap (Some ex_table) CatEnv (lit "odd")).
Proof. right. vm_compute. do 2 eexists. split; [reflexivity|]. intros H. inversion H. Qed.

(** C23: 2.5 < 30, and a float equal to an int. *)
Example ex_mixed : ex_run (lit "object.level < user.age AND user.age = 30.0") (Some ex_table) None = Ok (tv TRUE, []).
Proof. vm_compute. reflexivity. Qed.

(** C24, C25. *)
Example ex_sets : ex_run (lit "user.groups IN object.tags AND NOT (user.groups SUBSET object.tags) AND ""dev"" IN user.groups AND {1,2,2} = {2,1}")
  (Some ex_table) None = Ok (tv TRUE, []).
Proof. vm_compute. reflexivity. Qed.
Example ex_set_literal : ex_run (lit "user.groups = {""dev"", ""ops""}") (Some ex_table) (Some 3) = Ok (tv UNDEF, [WOperator]).
Proof. vm_compute. reflexivity. Qed.
Example ex_set_literal_ne : ex_run (lit "user.groups != {""dev"", ""ops""}") (Some ex_table) (Some 3) = Ok (tv UNDEF, [WOperator]).
Proof. vm_compute. reflexivity. Qed.

(** C26. *)
Example ex_case : ex_run (lit "USER.aGe >= 18 AND user.ADMIN") (Some ex_table) None = Ok (tv TRUE, []).
Proof. vm_compute. reflexivity. Qed.
Example ex_recased : recased (PAnd (PCmp OpGe (OAtt CatUser (lit "aGe")) (OAtom (AInt 18))) (PAtt CatUser (lit "ADMIN")))
                             (PAnd (PCmp OpGe (OAtt CatUser (lit "age")) (OAtom (AInt 18))) (PAtt CatUser (lit "admin"))).
Proof. repeat constructor. Qed.

(** C27: the decision for the first user is given to the second; a fresh tree denies. *)
Example ex_stale : ex_twice (lit "user.admin AND user.age >= 18") (Some ex_table) (Some ex_table2) = Ok (tv TRUE, tv TRUE).
Proof. vm_compute. reflexivity. Qed.
Example ex_fresh : ex_run (lit "user.admin AND user.age >= 18") (Some ex_table2) (Some 3) = Ok (tv FALSE, []).
Proof. vm_compute. reflexivity. Qed.

(** The claim "evaluating again with another table gives that table's decision" is false. *)
Definition ex_reuse_ast : ast :=
  match parse_text ascii_only (lit "user.admin AND user.age >= 18") 0 with
  | Ok (a, _) => a
  | Err _ => Node CNot (Tok NULL 0 TNone) 0 None []
  end.
Theorem C27_reuse_refuted : exists text a n' it1 it2 it3,
  parse_text ascii_only text 0 = Ok (a, n') /\
  evaluate ascii_only ex_heap (interp_new a) (Some ex_table) None = (it1, tv TRUE) /\
  evaluate ascii_only ex_heap it1 (Some ex_table2) None = (it2, tv TRUE) /\
  evaluate ascii_only ex_heap (interp_new a) (Some ex_table2) None = (it3, tv FALSE).
Proof.
  exists (lit "user.admin AND user.age >= 18"), ex_reuse_ast, 5,
    (fst (evaluate ascii_only ex_heap (interp_new ex_reuse_ast) (Some ex_table) None)),
    (fst (evaluate ascii_only ex_heap (fst (evaluate ascii_only ex_heap (interp_new ex_reuse_ast) (Some ex_table) None)) (Some ex_table2) None)),
    (fst (evaluate ascii_only ex_heap (interp_new ex_reuse_ast) (Some ex_table2) None)).
  repeat split; vm_compute; reflexivity.
Qed.

(** C22: the table with only the age, and the full one. *)
Example ex_more_info : more_info (env_of ascii_only ex_heap (Some [(lit "user.age", 0%nat)])) (env_of ascii_only ex_heap (Some ex_table)).
Proof.
  intros c n. unfold env_of, table_env, table_of, st_lookup, ex_table.
  generalize (py_lower ascii_only (cat_prefix c ++ n)). intros k. cbn [assoc].
  destruct (str_eqb k (lit "user.age")); [right; right; reflexivity|]. left. left. reflexivity.
Qed.
Example ex_more : ex_run (lit "user.age >= 18 OR user.admin") (Some [(lit "user.age", 0%nat)]) (Some 3) = Ok (tv TRUE, [WUnknownAtt])
  /\ ex_run (lit "user.age >= 18 OR user.admin") (Some ex_table) (Some 3) = Ok (tv TRUE, []).
Proof. vm_compute. auto. Qed.

Print Assumptions C18_kleene.
Print Assumptions C18_laws.
Print Assumptions C18_monotone.
Print Assumptions C18_truth.
Print Assumptions C19_evaluation.
Print Assumptions C19_subpolicies.
Print Assumptions C20_raises.
Print Assumptions C20_exceptions.
Print Assumptions C20_never_evaluates.
Print Assumptions C21_unusable.
Print Assumptions C21_bare.
Print Assumptions C22_monotone.
Print Assumptions C23_exact.
Print Assumptions C23_trichotomy.
Print Assumptions C24_negation.
Print Assumptions C25_subset.
Print Assumptions C25_equal.
Print Assumptions C25_attribute_literal.
Print Assumptions C25_in_set.
Print Assumptions C25_in_element.
Print Assumptions C26_case.
Print Assumptions C27_second_evaluation.
Print Assumptions C27_true_for_ever.
Print Assumptions C27_same_table.
Print Assumptions C28_no_level.
Print Assumptions C28_levels.
Print Assumptions C28_sticky.
Print Assumptions C57_warnings.
Print Assumptions C27_reuse_refuted.
