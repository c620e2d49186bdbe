(** * InterpDiagProps: the messages of the interpreter (C113) *)

From Coq Require Import NArith ZArith List Bool String Lia.
From Verif Require CodecSpec.
From Verif Require Import TypeCheck TypeSpec PyBase PyNum AttCert Errors ErrorProps ShowSpec ShowProofs3 BytesProofs ShownProps Lexer LexSpec LexProofs LexProofs2 LexProps Values Ast Parser Grammar
  ParseProofs ParseProofs2 Syntax PrintProofs ParseProps AbsProofs Symbols Interp EvalSpec EvalProofs EvalProofs2 EvalProps InterpDiag InterpDiagSpec InterpDiagProofs.
Import ListNotations.
Open Scope Z_scope.

(** Without messages. *)
Definition forget (r : dresult) : res (option rval) :=
  match r with DReturned v => Ok v | DWarned n => Err (EInterpWarning (no_pos n)) | DRaised f => Err (ff f) end.

(** C113.  For any tree, warnings so far, table and level, the interpreter with messages behaves as
    the one without: each warning has one message, *)
Theorem C113_same (U : unicode) (h : heap) (it : dinterp) (tb : option table) (level : option Z) :
  let '(it', r) := d_evaluate U h it tb level in
  evaluate U h (Interp (di_ast it) (map fw (di_notes it))) tb level = (Interp (di_ast it') (map fw (di_notes it')), forget r).
Proof.
  unfold d_evaluate, evaluate. cbn [i_ast i_warnings]. rewrite <- fs_node.
  destruct (d_eval_node U h _ (di_ast it)) as [[a ns] [f|]]; cbn [fs option_map di_notes i_warnings]; rewrite <- map_app; [reflexivity|].
  destruct (di_notes it ++ ns) as [|n rest]; [reflexivity|]. cbn [map]. destruct level as [z|]; [|reflexivity].
  destruct (z <=? warn_level); reflexivity.
Qed.
Print Assumptions C113_same.

(** and the warnings there were stay, first and unchanged. *)
Theorem C113_kept (U : unicode) (h : heap) (it : dinterp) (tb : option table) (level : option Z) :
  exists ns, di_notes (fst (d_evaluate U h it tb level)) = di_notes it ++ ns.
Proof.
  unfold d_evaluate. destruct (d_eval_node U h _ (di_ast it)) as [[a ns] [f|]]; exists ns; [reflexivity|]. cbn [di_notes].
  destruct (di_notes it ++ ns) as [|n rest] ; [reflexivity|]. destruct level as [z|]; [destruct (z <=? warn_level)|]; reflexivity.
Qed.
Print Assumptions C113_kept.

(** The first evaluation of a parsed policy gives the warnings of its events up to the first
    exception, and raises that exception; without one, the first warning or TypeError, as the level asks. *)
Theorem C113_messages (U : unicode) (h : heap) (text : str) (last n' : Z) (a : ast) (tb : option table) (level : option Z) :
  unicode_ok U -> heap_ok h -> parse_text U text last = Ok (a, n') ->
  let '(it', r) := d_evaluate U h (dinterp_new a) tb level in
  let '(ns, f) := told (root_events (env_of U h tb) (erase a)) in
  di_notes it' = ns /\
  match f with
  | Some x => r = DRaised x
  | None =>
      match ns, level with
      | n :: _, None => r = DRaised (FOther EType)
      | n :: _, Some z => if z <=? 2 then r = DWarned n else exists v, r = DReturned v
      | [], _ => exists v, r = DReturned v
      end
  end.
Proof.
  intros uok Hh H. apply parsed in H as [Hf [p Ha]]; auto.
  unfold d_evaluate, env_of. cbn [di_ast dinterp_new di_notes]. fold (table_of tb).
  pose proof (d_root U h (table_of tb) Hh a p Hf Ha) as R.
  destruct (d_eval_node U h (table_of tb) a) as [[a' ns] f]. cbn [spoken] in R. rewrite <- R. cbn [app].
  destruct f as [x|]; [auto|]. destruct ns as [|n ns]; [eauto|]. unfold warn_level.
  destruct level as [z|]; [|auto]. destruct (z <=? 2); eauto.
Qed.
Print Assumptions C113_messages.

(** ** What a warning says is so *)

Lemma first_ground U h text last a n' tb :
  unicode_ok U -> parse_text U text last = Ok (a, n') ->
  exists u e p, lex_text U text = Ok (start_token :: u ++ [e]) /\ abs (erase a) = Some p /\
    forall ev, In ev (root_events (env_of U h tb) (erase a)) -> ground (env_of U h tb) u (pol_comparisons p) ev.
Proof.
  intros uok H. destruct (parsed U text last a n' uok H) as [_ [p Ha]].
  destruct (C08_text_sound U text last a n' uok H) as (u & e & Hlex & _ & Hg). exists u, e, p. split; [exact Hlex|]. split; [exact Ha|].
  intros ev He. destruct (erase a) as [c t ks] eqn:Ea.
  assert (X : In ev (events (env_of U h tb) (PT c t ks)) -> ground (env_of U h tb) u (pol_comparisons p) ev).
  { intros Hev. eapply ground_incl; [|exact (proj2 (proj2 (ground_in (env_of U h tb) u)) u _ Hg (fun x Hx => Hx) ev Hev)].
    apply (compared_pol _ p Ha). }
  destruct c; try (apply X; exact He). cbn [root_events] in He. destruct He as [<-|[]].
  apply gr_const.
  - assert (G : forall u t ks, (g_exp u (PT CBoolVal t ks) -> In t u) /\ (g_term u (PT CBoolVal t ks) -> In t u) /\ (g_policy u (PT CBoolVal t ks) -> In t u)).
    { clear. intros u t ks.
      assert (G : (forall u a, g_exp u a -> a = PT CBoolVal t ks -> In t u) /\ (forall u a, g_term u a -> a = PT CBoolVal t ks -> In t u) /\ (forall u a, g_policy u a -> a = PT CBoolVal t ks -> In t u)).
      { apply g_mind; auto; try discriminate.
        - intros v b [s Hs|w x G] Eb; [injection Eb as -> _; now left|]. destruct G; discriminate.
        - intros lp v q rp _ _ IH _ Eq. right. apply in_app_iff. left. auto. }
      destruct G as (G1 & G2 & G3). repeat split; eauto. }
    now apply (G u t ks).
  - assert (G : forall t ks, (forall u a, g_exp u a -> a = PT CBoolVal t ks -> t_type t = BOOL) /\ (forall u a, g_term u a -> a = PT CBoolVal t ks -> t_type t = BOOL) /\ (forall u a, g_policy u a -> a = PT CBoolVal t ks -> t_type t = BOOL)).
    { clear. intros t ks. apply g_mind; auto; try discriminate.
      intros v b [s Hs|w x G] Eb; [injection Eb as -> _; exact Hs|]. destruct G; discriminate. }
    destruct (G t ks) as (_ & _ & G3). eapply G3; eauto.
Qed.

(** A value that has the type its symbol declares. *)
Definition fits (t : symtype) (v : pyval) : Prop :=
  match t, v with
  | (ST_INT | ST_FLOAT), (VInt _ | VFloat _ | VBool _) | ST_STRING, VStr _ | ST_BOOL, VTri _ | ST_SET, (VList _ | VSet _) => True
  | _, _ => False
  end.

(** Every warning of a first evaluation is about an attribute of the text, named as it is written
    there: unknown to the table, known without a value, or known with a value not of its type; or
    about a comparison of the policy whose defined operands cannot be compared, with the values of
    the two. *)
Theorem C113_warned (U : unicode) (h : heap) (text : str) (last n' : Z) (a : ast) (p : pol) (tb : option table) (level : option Z) (n : note) :
  unicode_ok U -> heap_ok h -> parse_text U text last = Ok (a, n') -> abs (erase a) = Some p ->
  In n (di_notes (fst (d_evaluate U h (dinterp_new a) tb level))) ->
  (exists ts t c name, lex_text U text = Ok ts /\ In t ts /\ t_type t = cat_type c /\ t_val t = TStr name /\
     no_pos n = t_pos t /\ no_msg n = att_said (no_kind n) c name /\ (no_left n, no_right n) = (VNone, VNone) /\
     ((no_kind n = WUnknownAtt /\ st_lookup U (table_of tb) (lit (cat_word c) ++ name) = None) \/
      exists l, st_lookup U (table_of tb) (lit (cat_word c) ++ name) = Some l /\
        (no_kind n = WNoValue /\ sy_value (hget h l) = VNone \/
         no_kind n = WBadType /\ ~ fits (sy_type (hget h l)) (sy_value (hget h l))))) \/
  (exists o x y, In (o, x, y) (pol_comparisons p) /\ no_kind n = WOperator /\ no_pos n = -1 /\ no_msg n = fst (cmp_said o) /\ no_rule n = snd (cmp_said o) /\
     (no_left n, no_right n) = carried o (operand_kind (env_of U h tb) x) (operand_kind (env_of U h tb) y) (raw (env_of U h tb) x) (raw (env_of U h tb) y) /\
     undefined (operand_kind (env_of U h tb) x) = false /\ undefined (operand_kind (env_of U h tb) y) = false /\
     cmp_bool o (operand_kind (env_of U h tb) x) (operand_kind (env_of U h tb) y) = None).
Proof.
  intros uok Hh H Ha Hn. pose proof (C113_messages U h text last n' a tb level uok Hh H) as M.
  destruct (d_evaluate U h (dinterp_new a) tb level) as [it' r]. cbn [fst] in Hn.
  destruct (told (root_events (env_of U h tb) (erase a))) as [ns f] eqn:T. destruct M as [M _]; rewrite M in Hn.
  assert (I : In (Says n) (root_events (env_of U h tb) (erase a))) by (apply told_in; now rewrite T).
  destruct (first_ground U h text last a n' tb uok H) as (u & e & p' & Hlex & Ha' & G). rewrite Ha in Ha'. injection Ha' as <-.
  apply G in I. inversion I as [t c name k A1 A2 A3 A4 E1|o l r' A1 A2 A3 A4 A5 E1| | | | |]; subst.
  - left. exists (start_token :: u ++ [e]), t, c, name. split; [exact Hlex|]. split; [right; apply in_app_iff; now left|].
    split; [exact A2|]. split; [exact A3|]. split; [reflexivity|]. split; [reflexivity|]. split; [reflexivity|]. cbn [no_kind].
    unfold att_warns, env_of, table_env in A4. rewrite <- prefix_word.
    destruct (st_lookup U (table_of tb) (cat_prefix c ++ name)) as [l|]; cbn [option_map] in A4.
    + right. exists l. split; [reflexivity|].
      destruct (sy_type (hget h l)), (sy_value (hget h l)) as [| | | | |[]| | |]; cbn in A4; cbn [fits];
      repeat (destruct A4 as [<-|A4]); try (destruct A4; fail); auto.
    + left. destruct A4 as [<-|[]]. auto.
  - right. exists o, l, r'. cbn [no_kind no_pos no_msg no_rule no_left no_right]. rewrite <- surjective_pairing. auto 12.
Qed.
Print Assumptions C113_warned.

(** Values an operator can work on, by the name of the rule. *)
Definition single (v : pyval) : Prop := as_num v <> None \/ (exists s, v = VStr s) \/ v = VNull.
Definition collection (v : pyval) : Prop := exists l, v = VList l \/ v = VSet l.
Definition workable (rule : str) (l r : pyval) : Prop :=
  (rule = lit "eq_op" /\ (same_sort_eq l r <> None \/ (exists a b, l = VSet a /\ r = VSet b) \/ exists a b, l = VList a /\ r = VList b)) \/
  (In rule [lit "qt_op"; lit "lt_op"; lit "gte_op"; lit "lte_op"] /\ as_num l <> None /\ as_num r <> None) \/
  (rule = lit "in_op" /\ collection r /\ (single l \/ collection l)) \/
  (rule = lit "subset_op" /\ exists a b, l = VSet a /\ r = VSet b).

(** The value an operand of this kind has. *)
Definition kind_raw (k : okind) (u : pyval) : Prop :=
  match k with
  | KAtom b => u = atom_val b | KLit l => u = VList (map atom_val l) | KScal v => u = v /\ ~ collection v
  | KColl l => u = VList l \/ u = VSet l | KTri b => u = VTri b | KUndef => False
  end.
Lemma kind_raw_ok (E : env) z : undefined (operand_kind E z) = false -> kind_raw (operand_kind E z) (raw E z).
Proof.
  destruct z as [b|l|c m]; cbn [operand_kind raw]; try reflexivity. intros Hu. destruct (E c m) as [[ty v]|]; [|discriminate Hu].
  destruct ty, v as [| | | | |[]| | |]; cbn [att_kind undefined kind_raw] in *; auto; try discriminate Hu;
  (split; [reflexivity|intros [l [X|X]]; discriminate X]).
Qed.

Lemma sort_tri v t : same_sort_eq v (VTri t) = None /\ same_sort_eq (VTri t) v = None.
Proof. split; [destruct v; cbn; try reflexivity; now destruct (as_num _)|reflexivity]. Qed.
Lemma sort_coll v w : collection v -> same_sort_eq v w = None /\ same_sort_eq w v = None.
Proof. intros [l [->| ->]]; (split; [reflexivity|destruct w; cbn; try reflexivity; now destruct (as_num _)]). Qed.
Lemma atom_single b : ~ collection (atom_val b).
Proof. intros [l [X|X]]; destruct b; discriminate X. Qed.

Lemma unworkable o a b u v : kind_raw a u -> kind_raw b v -> cmp_bool o a b = None ->
  ~ workable (snd (cmp_said o)) (fst (carried o a b u v)) (snd (carried o a b u v)).
Proof.
  intros Ka Kb Hb W.
  assert (Iq : (match knum a, knum b with Some x, Some y => Some (ineq o (num_cmp x y)) | _, _ => None end) = None -> as_num u <> None /\ as_num v <> None -> False).
  { clear Hb W. intros Hb [W1 W2].
    assert (N : forall k w, kind_raw k w -> as_num w <> None -> knum k = as_num w).
    { intros k w Kk Wk. destruct k; cbn [kind_raw] in Kk; try (subst w); try reflexivity; try (exfalso; now apply Wk).
      - destruct Kk as [-> _]. reflexivity.
      - destruct Kk as [->| ->]; exfalso; now apply Wk. }
    rewrite (N a u Ka W1), (N b v Kb W2) in Hb. destruct (as_num u); [|now apply W1]. destruct (as_num v); [discriminate Hb|now apply W2]. }
  assert (Eq : eq_den a b = None -> same_sort_eq (seen a b u) (seen b a v) <> None \/ (exists x y, seen a b u = VSet x /\ seen b a v = VSet y) \/
    (exists x y, seen a b u = VList x /\ seen b a v = VList y) -> False).
  { clear Hb W Iq. intros Hb W. destruct a as [|ta|xa|la|va|ca], b as [|tb|xb|lb|vb|cb]; cbn [kind_raw] in Ka, Kb; try (destruct Ka; fail); try (destruct Kb; fail);
    try discriminate Hb; cbn [eq_den kval seen] in *; subst;
    repeat match goal with
    | H : _ = _ /\ ~ collection _ |- _ => destruct H as [-> H]
    | H : _ /\ ~ collection _ |- _ => destruct H as [? H]; subst
    end;
    destruct W as [W|[(x & y & W1 & W2)|(x & y & W1 & W2)]]; try discriminate W1; try discriminate W2;
    try (apply W; exact Hb); try (apply W; apply sort_tri); try (apply W; apply sort_coll; eexists; eauto; fail);
    try (apply (atom_single xa); eexists; eauto; fail); try (apply (atom_single xb); eexists; eauto; fail). }
  destruct o; cbn [cmp_said snd fst carried cmp_bool] in *;
  (destruct W as [[R W]|[[R W]|[[R W]|[R W]]]]; try discriminate R; try (destruct R as [R|[R|[R|[R|[]]]]]; discriminate R); clear R); auto.
  - apply Eq; [|exact W]. destruct (eq_den a b); [discriminate Hb|reflexivity].
  - clear Iq Eq. destruct W as [W1 W2]. unfold in_den in Hb.
    destruct a as [|ta|xa|la|va|ca], b as [|tb|xb|lb|vb|cb]; cbn [kind_raw] in Ka, Kb; try (destruct Ka; fail); try (destruct Kb; fail);
    try discriminate Hb; cbn [as_set seen] in *; subst;
    repeat match goal with
    | H : _ /\ ~ collection _ |- _ => destruct H as [? H]; subst
    end;
    try (destruct W1 as [? [W1|W1]]; discriminate W1); try (now apply (atom_single xb)); try contradiction;
    try (destruct W2 as [[W2|[[? W2]|W2]]|[? [W2|W2]]]; first [now apply W2|discriminate W2]).
  - clear Iq Eq. destruct W as (x & y & W1 & W2). unfold subset_den in Hb.
    destruct a as [|ta|xa|la|va|ca], b as [|tb|xb|lb|vb|cb]; cbn [kind_raw] in Ka, Kb; try (destruct Ka; fail); try (destruct Kb; fail);
    try discriminate Hb; cbn [as_set seen] in *; subst;
    repeat match goal with
    | H : _ /\ ~ collection _ |- _ => destruct H as [? H]; subst
    end;
    try discriminate W1; try discriminate W2; try (destruct xa; discriminate W1); try (destruct xb; discriminate W2).
Qed.

(** The two values of a warning about a comparison show why: its operator cannot work on them. *)
Theorem C113_blamed (U : unicode) (h : heap) (text : str) (last n' : Z) (a : ast) (tb : option table) (level : option Z) (n : note) :
  unicode_ok U -> heap_ok h -> parse_text U text last = Ok (a, n') ->
  In n (di_notes (fst (d_evaluate U h (dinterp_new a) tb level))) -> no_kind n = WOperator ->
  ~ workable (no_rule n) (no_left n) (no_right n).
Proof.
  intros uok Hh H Hn Hk. destruct (parsed U text last a n' uok H) as [_ [p Ha]].
  destruct (C113_warned U h text last n' a p tb level n uok Hh H Ha Hn) as [(ts & t & c & name & _ & _ & _ & _ & _ & _ & _ & X)|(o & x & y & _ & _ & _ & _ & Hr & Hc & Ux & Uy & Hb)].
  { destruct X as [[X _]|(l & _ & [[X _]|[X _]])]; congruence. }
  rewrite Hr. replace (no_left n) with (fst (no_left n, no_right n)) by reflexivity.
  replace (no_right n) with (snd (no_left n, no_right n)) at 2 by reflexivity. rewrite Hc.
  apply unworkable; auto using kind_raw_ok.
Qed.
Print Assumptions C113_blamed.

(** An exception points at a token of the text: a constant or a literal 0, 0.0 or "", or a NOT, AND
    or OR over an attribute that is no truth value; a TypeError comes from a comparison. *)
Theorem C113_stopped (U : unicode) (h : heap) (text : str) (last n' : Z) (a : ast) (p : pol) (tb : option table) (level : option Z) (f : fault) :
  unicode_ok U -> heap_ok h -> parse_text U text last = Ok (a, n') -> abs (erase a) = Some p ->
  snd (d_evaluate U h (dinterp_new a) tb level) = DRaised f ->
  (exists ts t rule, lex_text U text = Ok ts /\ In t ts /\
     ((f = FInterp (lit "Interpreter Error, invalid node type.") rule (t_pos t) /\
       (t_type t = BOOL \/ exists x, (t_type t, t_val t) = atom_word x /\ zero_atom x = true)) \/
      (f = FInterp (lit "Interpreter Error, invalid child node or invalid child node result.") rule (t_pos t) /\
       (t_type t = NOT_OP \/ t_type t = BOOL_OP) /\
       exists c name, In (cat_type c, TStr name) (map (fun s => (t_type s, t_val s)) ts) /\
         undefined (att_kind (env_of U h tb c name)) = false /\ forall x, att_kind (env_of U h tb c name) <> KTri x))) \/
  (f = FOther EType /\
     ((level = None /\ di_notes (fst (d_evaluate U h (dinterp_new a) tb level)) <> []) \/
      exists o x y, In (o, x, y) (pol_comparisons p) /\ hash_fault o (operand_kind (env_of U h tb) x) (operand_kind (env_of U h tb) y) = true)).
Proof.
  intros uok Hh H Ha Hr. pose proof (C113_messages U h text last n' a tb level uok Hh H) as M.
  destruct (d_evaluate U h (dinterp_new a) tb level) as [it' r]. cbn [fst snd] in *. subst r.
  destruct (told (root_events (env_of U h tb) (erase a))) as [ns g] eqn:T. destruct M as [-> M].
  destruct g as [x|].
  2:{ right. destruct ns as [|n ns]; [destruct M; discriminate|]. destruct level as [z|]; [destruct (z <=? 2); [discriminate|destruct M; discriminate]|].
      injection M as ->. split; [reflexivity|]. left. split; [reflexivity|discriminate]. }
  injection M as <-.
  assert (I : In (Stops f) (root_events (env_of U h tb) (erase a))) by (apply told_stop; now rewrite T).
  destruct (first_ground U h text last a n' tb uok H) as (u & e & p' & Hlex & Ha' & G). rewrite Ha in Ha'. injection Ha' as <-.
  assert (In' : forall t, In t u -> In t (start_token :: u ++ [e])) by (intros t Ht; right; apply in_app_iff; now left).
  apply G in I. inversion I as [| |o l r A1 A2 A3 A4 E1|t x A1 A2 A3 E1|t A1 A2 E1|t s c n A1 A2 A3 A4 A5 A6 A7 E1|t s c n A1 A2 A3 A4 A5 A6 A7 E1]; subst.
  - right. split; [reflexivity|]. right. eauto.
  - left. eexists _, t, _. split; [exact Hlex|]. split; [auto|]. left. split; [reflexivity|]. right. eauto.
  - left. eexists _, t, _. split; [exact Hlex|]. split; [auto|]. left. split; [reflexivity|]. auto.
  - left. eexists _, t, _. split; [exact Hlex|]. split; [auto|]. right. split; [reflexivity|]. split; [auto|].
    exists c, n. split; [|auto]. apply in_map_iff. exists s. split; [congruence|auto].
  - left. eexists _, t, _. split; [exact Hlex|]. split; [auto|]. right. split; [reflexivity|]. split; [auto|].
    exists c, n. split; [|auto]. apply in_map_iff. exists s. split; [congruence|auto].
Qed.
Print Assumptions C113_stopped.

(** ** Any evaluation *)

(** What a warning says is so of the table: it is about an attribute among the nodes, or shows two
    values on which the operator cannot work. *)
Definition honest (U : unicode) (h : heap) (tb : table) (nodes : list ast) (n : note) : Prop :=
  (exists a name, In a nodes /\ att_to_symbol_name (n_cls a) (n_tok a) = Ok name /\ no_pos n = t_pos (n_tok a) /\ (no_left n, no_right n) = (VNone, VNone) /\
     ((no_kind n = WUnknownAtt /\ no_msg n = lit "Interpreter Warning, unknown attribute " ++ name ++ lit " found in policy." /\ st_lookup U tb name = None) \/
      exists l, st_lookup U tb name = Some l /\
        (no_kind n = WNoValue /\ no_msg n = lit "Interpreter Warning, the attribute " ++ name ++ lit " has no value." /\ sy_value (hget h l) = VNone \/
         no_kind n = WBadType /\ no_msg n = lit "Interpreter Warning, the attribute " ++ name ++ lit " has an invalid type." /\ ~ fits (sy_type (hget h l)) (sy_value (hget h l))))) \/
  (exists o, no_kind n = WOperator /\ no_pos n = -1 /\ no_msg n = fst (cmp_said o) /\ no_rule n = snd (cmp_said o) /\
     ~ workable (no_rule n) (no_left n) (no_right n)).

Section Any.
Variable U : unicode.
Variable h : heap.
Variable tb : table.

Definition blames (o : cmp) (n : note) : Prop :=
  no_kind n = WOperator /\ no_pos n = -1 /\ no_msg n = fst (cmp_said o) /\ no_rule n = snd (cmp_said o) /\ ~ workable (no_rule n) (no_left n) (no_right n).

Lemma blames_undef o l r n : ~ workable (snd (cmp_said o)) l r -> In n (fst (d_undef (fst (cmp_said o)) (snd (cmp_said o)) l r)) -> blames o n.
Proof. intros W [<-|[]]. repeat split; auto. Qed.
Lemma blames_none o r n : In n (fst (d_bool r)) -> blames o n.
Proof. destruct r; intros []. Qed.

Lemma blames_ineq o f lr rr n : In o [OpGt; OpLt; OpGe; OpLe] ->
  In n (fst (d_ineq_op h f (fst (cmp_said o)) (snd (cmp_said o)) lr rr)) -> blames o n.
Proof.
  intros Ho. unfold d_ineq_op.
  assert (W : as_num (plain h lr) = None \/ as_num (plain h rr) = None -> ~ workable (snd (cmp_said o)) (plain h lr) (plain h rr)).
  { intros Hn W. assert (R : In (snd (cmp_said o)) [lit "qt_op"; lit "lt_op"; lit "gte_op"; lit "lte_op"]).
    { destruct Ho as [<-|[<-|[<-|[<-|[]]]]]; cbn; auto 6. }
    destruct W as [[W _]|[(_ & W1 & W2)|[[W _]|[W _]]]]; [rewrite W in R| |rewrite W in R|rewrite W in R].
    - destruct R as [R|[R|[R|[R|[]]]]]; discriminate R.
    - destruct Hn; auto.
    - destruct R as [R|[R|[R|[R|[]]]]]; discriminate R.
    - destruct R as [R|[R|[R|[R|[]]]]]; discriminate R. }
  destruct (as_num (plain h lr)) eqn:E1; [destruct (as_num (plain h rr)) eqn:E2|].
  - intros [].
  - apply blames_undef. apply W. auto.
  - apply blames_undef. apply W. auto.
Qed.

Ltac only_rule W := destruct W as [[R W]|[[R W]|[[R W]|[R W]]]]; try discriminate R; try (destruct R as [R|[R|[R|[R|[]]]]]; discriminate R); clear R.

Lemma blames_eq lr rr n : In n (fst (d_eq_op h lr rr)) -> blames OpEq n.
Proof.
  unfold d_eq_op. destruct (to_val h lr rr 0) as [l|]; [|intros []]. destruct (to_val h rr lr 0) as [r|]; [|intros []]. cbn [d_lift].
  destruct (_ || _) eqn:Eb; [intros []|].
  assert (X : (exists a b, l = VList a /\ r = VList b) \/ ~ workable (lit "eq_op") l r).
  { destruct l as [|?|?|?|?|?| |la|la], r as [|?|?|?|?|?| |ra|ra]; try discriminate Eb; try (left; eauto; fail); right; intros W; only_rule W;
    destruct W as [W|[(x & y & W1 & W2)|(x & y & W1 & W2)]]; try discriminate W1; try discriminate W2; now apply W. }
  destruct X as [(a & b & -> & ->)|X].
  - destruct (py_set a); [|intros []]. destruct (py_set b); intros [].
  - destruct l as [|?|?|?|?|?| |la|la]; try (apply (blames_undef OpEq); exact X). destruct r as [|?|?|?|?|?| |ra|ra]; try (apply (blames_undef OpEq); exact X).
    destruct (py_set la); [|intros []]. destruct (py_set ra); intros [].
Qed.
Lemma blames_in lr rr n : In n (fst (d_in_op h lr rr)) -> blames OpIn n.
Proof.
  unfold d_in_op. destruct (to_val h lr rr 1) as [l|]; [|intros []]. destruct (to_val h rr lr 0) as [r|]; [|intros []]. cbn [d_lift]. cbv zeta.
  destruct (coll_elems r) eqn:Er.
  - destruct (isinst_num l || isinst_str l) eqn:E1; [apply blames_none|]. destruct (isinst_null l) eqn:E2; [apply blames_none|].
    destruct (coll_elems l) eqn:E3; [apply blames_none|]. apply (blames_undef OpIn). intros W. only_rule W. destruct W as [_ W].
    destruct l; try discriminate; destruct W as [[W|[[? W]|W]]|[? [W|W]]]; try discriminate W; now apply W.
  - apply (blames_undef OpIn). intros W. only_rule W. destruct W as [[m [->| ->]] _]; discriminate Er.
Qed.
Lemma blames_subset lr rr n : In n (fst (d_subset_op h lr rr)) -> blames OpSubset n.
Proof.
  unfold d_subset_op. destruct (subset_val h lr rr) as [l|]; [|intros []]. destruct (subset_val h rr lr) as [r|]; [|intros []]. cbn [d_lift].
  assert (X : (exists a b, l = VSet a /\ r = VSet b) \/ ~ workable (lit "subset_op") l r).
  { destruct l as [|?|?|?|?|?| |la|la], r as [|?|?|?|?|?| |ra|ra]; try (left; eauto; fail); right; intros W; only_rule W; destruct W as (x & y & W1 & W2); discriminate. }
  destruct X as [(a & b & -> & ->)|X]; [intros []|].
  destruct l as [|?|?|?|?|?| |la|la]; try (apply (blames_undef OpSubset); exact X). destruct r as [|?|?|?|?|?| |ra|ra]; try (apply (blames_undef OpSubset); exact X).
  intros [].
Qed.
Lemma blames_run s u lr rr p n : In n (fst (d_run_op h s u lr rr p)) -> exists o, blames o n.
Proof.
  unfold d_run_op.
  destruct (str_eqb s (lit "=")); [exists OpEq; now apply blames_eq in H|].
  destruct (str_eqb s (lit "!=")).
  { unfold d_neq_op. destruct (d_eq_op h lr rr) as [ns x] eqn:E. intros H. exists OpEq. apply (blames_eq lr rr). now rewrite E. }
  destruct (str_eqb s (lit ">")); [intros H; exists OpGt; eapply blames_ineq; [cbn; auto 6|exact H]|].
  destruct (str_eqb s (lit "<")); [intros H; exists OpLt; eapply blames_ineq; [cbn; auto 6|exact H]|].
  destruct (str_eqb s (lit ">=")); [intros H; exists OpGe; eapply blames_ineq; [cbn; auto 6|exact H]|].
  destruct (str_eqb s (lit "<=")); [intros H; exists OpLe; eapply blames_ineq; [cbn; auto 6|exact H]|].
  destruct (str_eqb u (lit "IN")); [intros H; exists OpIn; eapply blames_in; exact H|].
  destruct (str_eqb u (lit "SUBSET")); [intros H; exists OpSubset; eapply blames_subset; exact H|]. intros [].
Qed.

Lemma honest_self c t i old ks nodes n r' ns x : d_eval_self U h tb c t old ks = (r', ns, x) -> In n ns -> (exists kids, In (Node c t i old kids) nodes) -> honest U h tb nodes n.
Proof.
  intros E Hn [kids Hi].
  assert (Att : d_eval_att U h tb c t old = (r', ns, x) -> honest U h tb nodes n).
  { clear E. unfold d_eval_att. destruct (att_to_symbol_name c t) as [name|e] eqn:En; [|intros [= _ <- _]; destruct Hn].
    intros E. left. exists (Node c t i old kids), name. split; [exact Hi|]. split; [exact En|]. revert E.
    destruct (st_lookup U tb name) as [l|].
    2:{ intros [= _ <- _]. destruct Hn as [<-|[]]. split; [reflexivity|]. split; [reflexivity|]. left. auto. }
    cbv zeta. intros E.
    assert (NV : In n (match sy_value (hget h l) with
                    | VNone => [warn_node WNoValue (lit "Interpreter Warning, the attribute " ++ name ++ lit " has no value.") (lit "evaluate_att_node") t]
                    | _ => [] end) ->
      no_pos n = t_pos t /\ (no_left n, no_right n) = (VNone, VNone) /\
      (no_kind n = WNoValue /\ no_msg n = lit "Interpreter Warning, the attribute " ++ name ++ lit " has no value." /\ sy_value (hget h l) = VNone)).
    { destruct (sy_value (hget h l)); intros H; try (destruct H; fail). destruct H as [<-|[]]. auto 8. }
    cbn [n_tok]. destruct (negb (check_val_type (hget h l))) eqn:Ec.
    - injection E as _ <- _. apply in_app_iff in Hn as [Hn|[<-|[]]].
      + destruct (NV Hn) as (A & B & C). split; [exact A|]. split; [exact B|]. right. exists l. auto.
      + split; [reflexivity|]. split; [reflexivity|]. right. exists l. split; [reflexivity|]. right. split; [reflexivity|]. split; [reflexivity|].
        unfold check_val_type in Ec. destruct (sy_type (hget h l)), (sy_value (hget h l)); cbn in *; try discriminate Ec; auto.
    - assert (Hn' : ns = match sy_value (hget h l) with
                    | VNone => [warn_node WNoValue (lit "Interpreter Warning, the attribute " ++ name ++ lit " has no value.") (lit "evaluate_att_node") t]
                    | _ => [] end) by (destruct (symtype_eqb _ _); injection E as _ <- _; reflexivity).
      rewrite Hn' in Hn. destruct (NV Hn) as (A & B & C). split; [exact A|]. split; [exact B|]. right. exists l. auto. }
  destruct c; cbn [d_eval_self] in E; auto; try (injection E as _ <- _; destruct Hn; fail).
  - unfold d_eval_op in E. destruct ks as [|l [|r ks]]; try (injection E as _ <- _; destruct Hn; fail).
    destruct (n_result l) as [lv|], (n_result r) as [rv|]; try (injection E as _ <- _; destruct Hn; fail).
    destruct (t_val t) as [|s| |]; try (injection E as _ <- _; destruct Hn; fail). cbv zeta in E.
    destruct (existsb _ _); [|injection E as _ <- _; destruct Hn]. destruct (_ || _); [injection E as _ <- _; destruct Hn|].
    right. apply (blames_run s (py_upper U s) lv rv (t_pos t)).
    destruct (d_run_op h s (py_upper U s) lv rv (t_pos t)) as [ms [y|f]]; cbn [from_dout] in E; injection E as _ <- _; exact Hn.
  - unfold d_eval_bool_op in E. destruct ks as [|l [|r ks]]; try (injection E as _ <- _; destruct Hn; fail).
    destruct (n_result l) as [[[]|]|]; try (injection E as _ <- _; destruct Hn; fail).
    destruct (n_result r) as [[[]|]|]; try (injection E as _ <- _; destruct Hn; fail).
    destruct (t_val t) as [|s| |]; try (injection E as _ <- _; destruct Hn; fail). cbv zeta in E.
    destruct (str_eqb _ _); [injection E as _ <- _; destruct Hn|]. destruct (str_eqb _ _); injection E as _ <- _; destruct Hn.
  - unfold d_eval_set in E. destruct (set_members ks) as [l []]; injection E as _ <- _; destruct Hn.
  - unfold d_eval_not in E. destruct ks as [|k ks]; [injection E as _ <- _; destruct Hn|].
    destruct (n_result k) as [[[]|]|]; injection E as _ <- _; destruct Hn.
Qed.

Lemma honest_more nodes nodes' n : (forall a, In a nodes -> In a nodes') -> honest U h tb nodes n -> honest U h tb nodes' n.
Proof. intros H [(a & name & I & X)|X]; [left; exists a, name; auto|right; exact X]. Qed.

Lemma honest_node : forall a a' ns x n, d_eval_node U h tb a = (a', ns, x) -> In n ns -> honest U h tb (CodecSpec.subtrees a) n.
Proof.
  induction a as [c t i r ks IH] using ast_ind'. intros a' ns x n E Hn. rewrite d_eval_unfold in E.
  assert (K : forall l ks' ns f, Forall (fun a => forall a' ns x n, d_eval_node U h tb a = (a', ns, x) -> In n ns -> honest U h tb (CodecSpec.subtrees a) n) l ->
    d_kids U h tb l = (ks', ns, f) -> forall n, In n ns -> honest U h tb (flat_map CodecSpec.subtrees l) n).
  { clear. induction l as [|k l IHl]; intros ks' ns f F E n Hn; [injection E as _ <- _; destruct Hn|]. inversion F as [|? ? Fk Fl]; subst.
    rewrite d_kids_cons in E. unfold d_visit in E. cbn [flat_map].
    assert (L : forall m, honest U h tb (CodecSpec.subtrees k) m -> honest U h tb (CodecSpec.subtrees k ++ flat_map CodecSpec.subtrees l) m) by (intros m; apply honest_more; intros; apply in_app_iff; auto).
    assert (R : forall m, honest U h tb (flat_map CodecSpec.subtrees l) m -> honest U h tb (CodecSpec.subtrees k ++ flat_map CodecSpec.subtrees l) m) by (intros m; apply honest_more; intros; apply in_app_iff; auto).
    destruct (rtruthy (n_result k)).
    - destruct (d_kids U h tb l) as [[l' ms] g] eqn:El. injection E as _ <- _. apply R. eapply IHl; eauto.
    - destruct (d_eval_node U h tb k) as [[k' ms] [g|]] eqn:Ek.
      + injection E as _ <- _. apply L. eapply Fk; eauto.
      + destruct (d_kids U h tb l) as [[l' ms'] g] eqn:El. injection E as _ <- _. apply in_app_iff in Hn as [Hn|Hn]; [apply L; eapply Fk; eauto|apply R; eapply IHl; eauto]. }
  destruct (d_kids U h tb ks) as [[ks' ms] [f|]] eqn:Ek.
  - injection E as _ <- _. eapply honest_more; [|eapply K; eauto]. intros a I. cbn [CodecSpec.subtrees]. right. exact I.
  - destruct (d_eval_self U h tb c t r ks') as [[r' ms2] y] eqn:Es. injection E as _ <- _. apply in_app_iff in Hn as [Hn|Hn].
    + eapply honest_more; [|eapply K; eauto]. intros a I. cbn [CodecSpec.subtrees]. right. exact I.
    + eapply (honest_self c t i); eauto. exists ks. cbn [CodecSpec.subtrees]. now left.
Qed.
End Any.

(** In any evaluation of any tree, also a later one with other values, whatever is warned of is so of
    the table of that evaluation. *)
Theorem C113_any (U : unicode) (h : heap) (it : dinterp) (tb : option table) (level : option Z) :
  exists ns, di_notes (fst (d_evaluate U h it tb level)) = di_notes it ++ ns /\
    forall n, In n ns -> honest U h (table_of tb) (CodecSpec.subtrees (di_ast it)) n.
Proof.
  unfold d_evaluate. fold (table_of tb). destruct (d_eval_node U h (table_of tb) (di_ast it)) as [[a ns] f] eqn:E. exists ns. split.
  - destruct f as [f|]; [reflexivity|]. cbn [di_notes]. destruct (di_notes it ++ ns) as [|n rest]; [reflexivity|].
    destruct level as [z|]; [destruct (z <=? warn_level)|]; reflexivity.
  - intros n Hn. eapply honest_node; eauto.
Qed.
Print Assumptions C113_any.

(** ** What is shown *)

Lemma token_shown U text ts t m : unicode_ok U -> lex_text U text = Ok ts -> In t ts -> t <> start_token -> text <> [] ->
  exists s, excerpt text (t_pos t) 10 s /\ err_str m (Some text) (t_pos t) = m ++ lit " @ char " ++ str_of_Z (t_pos t) ++ lit " near '" ++ s ++ lit "'".
Proof.
  intros uok Hlex I N T. apply shown_text; [exact T|].
  apply (lex_text_iff U uok) in Hlex as (ts' & -> & Tl). destruct I as [<-|I]; [congruence|].
  apply tiles_lexed in Tl; [|lia]. rewrite Forall_forall in Tl. now apply Tl.
Qed.

(** str() of a warning about an attribute: the message, where the attribute is and the text within
    ten characters; of a warning about a comparison: the message alone. *)
Theorem C113_shown (U : unicode) (h : heap) (text : str) (last n' : Z) (a : ast) (tb : option table) (level : option Z) (n : note) :
  unicode_ok U -> heap_ok h -> parse_text U text last = Ok (a, n') ->
  In n (di_notes (fst (d_evaluate U h (dinterp_new a) tb level))) ->
  match no_kind n with
  | WOperator => note_str (Some text) n = no_msg n
  | _ => exists ts t c name s, lex_text U text = Ok ts /\ In t ts /\ t_type t = cat_type c /\ t_val t = TStr name /\ excerpt text (t_pos t) 10 s /\
      note_str (Some text) n = att_said (no_kind n) c name ++ lit " @ char " ++ str_of_Z (t_pos t) ++ lit " near '" ++ s ++ lit "'"
  end.
Proof.
  intros uok Hh H Hn. destruct (parsed U text last a n' uok H) as [_ [p Ha]].
  destruct (C113_warned U h text last n' a p tb level n uok Hh H Ha Hn) as [(ts & t & c & name & Hlex & Ht & Ty & Tv & Hp & Hm & _ & Hk)|(o & x & y & _ & Hk & Hp & Hm & _)].
  - assert (T : text <> []).
    { intros ->. change (lex_text U []) with (@Ok (list token) [start_token; Tok END 0 TNone]) in Hlex. apply Ok_inj in Hlex. subst ts.
      destruct Ht as [<-|[<-|[]]]; destruct c; discriminate. }
    assert (N : t <> start_token) by (intros ->; destruct c; discriminate).
    destruct (token_shown U text ts t (no_msg n) uok Hlex Ht N T) as (s & X & Es).
    assert (Q : exists ts t c name s, lex_text U text = Ok ts /\ In t ts /\ t_type t = cat_type c /\ t_val t = TStr name /\ excerpt text (t_pos t) 10 s /\
      note_str (Some text) n = att_said (no_kind n) c name ++ lit " @ char " ++ str_of_Z (t_pos t) ++ lit " near '" ++ s ++ lit "'").
    { exists ts, t, c, name, s. repeat split; auto. unfold note_str. rewrite Hp, Es, Hm. reflexivity. }
    destruct Hk as [[Hk _]|(l & _ & [[Hk _]|[Hk _]])]; rewrite Hk in *; exact Q.
  - rewrite Hk. unfold note_str, err_str. rewrite Hp. reflexivity.
Qed.
Print Assumptions C113_shown.

(** str() of an InterpreterError: the message, where the token is and the text within ten characters. *)
Theorem C113_error_shown (U : unicode) (h : heap) (text : str) (last n' : Z) (a : ast) (tb : option table) (level : option Z) (m rule : str) (pos : Z) :
  unicode_ok U -> heap_ok h -> parse_text U text last = Ok (a, n') ->
  snd (d_evaluate U h (dinterp_new a) tb level) = DRaised (FInterp m rule pos) ->
  exists ts t s, lex_text U text = Ok ts /\ In t ts /\ pos = t_pos t /\ excerpt text pos 10 s /\
    fault_str (Some text) (FInterp m rule pos) = Some (m ++ lit " @ char " ++ str_of_Z pos ++ lit " near '" ++ s ++ lit "'").
Proof.
  intros uok Hh H Hr. destruct (parsed U text last a n' uok H) as [_ [p Ha]].
  destruct (C113_stopped U h text last n' a p tb level _ uok Hh H Ha Hr) as [(ts & t & ru & Hlex & Ht & D)|[? _]]; [|discriminate].
  assert (X : pos = t_pos t /\ t <> start_token /\ t_type t <> END).
  { destruct D as [([= _ _ ->] & [D|(x & D & _)])|([= _ _ ->] & [D|D] & _)]; (split; [reflexivity|]);
    split; try (intros ->; discriminate D); try congruence; try (destruct x; injection D as D _; congruence).
    - intros ->. destruct x; discriminate D. }
  destruct X as (-> & N & Ne).
  assert (T : text <> []).
  { intros ->. change (lex_text U []) with (@Ok (list token) [start_token; Tok END 0 TNone]) in Hlex. apply Ok_inj in Hlex. subst ts.
    destruct Ht as [<-|[<-|[]]]; [congruence|]. now apply Ne. }
  destruct (token_shown U text ts t m uok Hlex Ht N T) as (s & Xs & Es). exists ts, t, s. repeat split; auto. cbn [fault_str]. now rewrite Es.
Qed.
Print Assumptions C113_error_shown.

(** False: that a warning shows which comparison it is about.  Two comparisons of one policy give
    warnings that are the same in every respect, when the attributes have the same value. *)
Theorem C113_which_refuted :
  exists text h tb a n' n l r l' r',
    heap_ok h /\ parse_text ascii_only text 0 = Ok (a, n') /\ abs (erase a) = Some (POr (PCmp OpGt l r) (PCmp OpGt l' r')) /\ (l, r) <> (l', r') /\
    di_notes (fst (d_evaluate ascii_only h (dinterp_new a) tb (Some 4))) = [n; n] /\ note_str (Some text) n = no_msg n.
Proof.
  exists (lit "user.groups > 1 OR object.owners > 1"),
    [ex_sym (lit "groups") USR_ATT ST_SET (VSet [VStr (lit "dev")]); ex_sym (lit "owners") OBJ_ATT ST_SET (VSet [VStr (lit "dev")])],
    (Some [(lit "user.groups", 0%nat); (lit "object.owners", 1%nat)]). eexists _, _, _, _, _, _, _.
  split; [repeat (constructor; [cbn; auto; try (repeat constructor; discriminate)|]); constructor|].
  split; [vm_compute; reflexivity|]. split; [vm_compute; reflexivity|]. split; [discriminate|].
  split; vm_compute; reflexivity.
Qed.
Print Assumptions C113_which_refuted.

(** ** Examples *)

Definition said_of (text : str) (tb : option table) : option (list str * option str) :=
  match parse_text ascii_only text 0 with
  | Ok (a, _) =>
      let '(it, r) := d_evaluate ascii_only ex_heap (dinterp_new a) tb (Some 4) in
      Some (map (note_str (Some text)) (di_notes it), match r with DRaised f => fault_str (Some text) f | _ => None end)
  | Err _ => None
  end.
Example C113_case : said_of (lit "USER.Age > 18 AND (env.None = 5 OR env.odd IN {1} OR user.nobody) OR ""x"" <= user.age") (Some ex_table) =
  Some ([lit "Interpreter Warning, the attribute env.None has no value. @ char 19 near '> 18 AND (env.None = '";
         lit "Interpreter Warning, the attribute env.None has an invalid type. @ char 19 near '> 18 AND (env.None = '";
         lit "Interpreter Warning, the attribute env.odd has an invalid type. @ char 35 near 'ne = 5 OR env.odd IN '";
         lit "Interpreter Warning, unknown attribute user.nobody found in policy. @ char 53 near 'IN {1} OR user.nobody'";
         lit "Interpreter Warning, invalid type used in '<=' operation."], None).
Proof. vm_compute. reflexivity. Qed.
Example C113_case_error : said_of (lit "user.nobody OR NOT (user.age) OR user.what = 0") (Some ex_table) =
  Some ([lit "Interpreter Warning, unknown attribute user.nobody found in policy. @ char 0 near 'user.nobody'"],
        Some (lit "Interpreter Error, invalid child node or invalid child node result. @ char 15 near 'nobody OR NOT (user.a'")).
Proof. vm_compute. reflexivity. Qed.
Example C113_case_zero : said_of (lit "user.age > 0") (Some ex_table) =
  Some ([], Some (lit "Interpreter Error, invalid node type. @ char 11 near 'ser.age > 0'")).
Proof. vm_compute. reflexivity. Qed.
(** The level decides between the first warning and the result; the second evaluation keeps the warnings. *)
Example C113_case_level : exists a n', parse_text ascii_only (lit "user.admin OR user.nobody") 0 = Ok (a, n') /\
  exists n it, d_evaluate ascii_only ex_heap (dinterp_new a) (Some ex_table) (Some 2) = (it, DWarned n) /\
    no_msg n = lit "Interpreter Warning, unknown attribute user.nobody found in policy." /\
    snd (d_evaluate ascii_only ex_heap (dinterp_new a) (Some ex_table) (Some 3)) = DReturned (Some (RV (VTri TRUE))) /\
    di_notes (fst (d_evaluate ascii_only ex_heap it (Some ex_table) (Some 3))) = [n; n].
Proof. eexists _, _. split; [vm_compute; reflexivity|]. eexists _, _. split; [vm_compute; reflexivity|]. repeat split; vm_compute; reflexivity. Qed.
(** The values carried: a list from an attribute as it is stored for >, as a set for =, and a single
    value from an attribute as a set next to another attribute. *)
Example C113_case_values : exists a n', parse_text ascii_only (lit "object.tags > 1 OR object.tags = ""a"" OR {""b""} = user.age OR user.age IN user.admin") 0 = Ok (a, n') /\
  map (fun n => (no_rule n, no_left n, no_right n)) (di_notes (fst (d_evaluate ascii_only ex_heap (dinterp_new a) (Some ex_table) (Some 4)))) =
  [(lit "qt_op", VList [VStr (lit "ops"); VInt 7], VInt 1); (lit "eq_op", VSet [VStr (lit "ops"); VInt 7], VStr (lit "a"));
   (lit "eq_op", VList [VStr (lit "b")], VSet [VInt 30]); (lit "in_op", VInt 30, VTri TRUE)].
Proof. eexists _, _. split; vm_compute; reflexivity. Qed.
(** A later evaluation, where the attribute is known but its value is not of its type. *)
Example C113_case_any : exists a n', parse_text ascii_only (lit "user.age > 18 OR user.who = user.age") 0 = Ok (a, n') /\
  exists it n1 n2, fst (d_evaluate ascii_only ex_heap (dinterp_new a) (Some ex_table) (Some 3)) = it /\ di_notes it = [n1] /\
    di_notes (fst (d_evaluate ascii_only ex_heap it (Some [(lit "user.age", 6%nat); (lit "user.who", 7%nat)]) (Some 3))) = [n1; n2] /\
    no_msg n1 = lit "Interpreter Warning, unknown attribute user.who found in policy." /\
    no_msg n2 = lit "Interpreter Warning, the attribute user.who has an invalid type.".
Proof. eexists _, _. split; [vm_compute; reflexivity|]. eexists _, _, _. repeat split; vm_compute; reflexivity. Qed.

(** But the warning that a later evaluation raises need not be about that evaluation: the first one
    kept is raised, also when nothing is wrong any more. *)
Theorem C113_raised_refuted : exists text a n' h tb it n,
  parse_text ascii_only text 0 = Ok (a, n') /\ it = fst (d_evaluate ascii_only h (dinterp_new a) None (Some 3)) /\
  d_evaluate ascii_only h (dinterp_new a) (Some tb) (Some 2) = (fst (d_evaluate ascii_only h (dinterp_new a) (Some tb) (Some 2)), DReturned (Some (RV (VTri TRUE)))) /\
  di_notes (fst (d_evaluate ascii_only h it (Some tb) (Some 2))) = di_notes it /\
  snd (d_evaluate ascii_only h it (Some tb) (Some 2)) = DWarned n /\
  ~ honest ascii_only h tb (CodecSpec.subtrees a) n.
Proof.
  exists (lit "user.age > 18"). do 2 eexists. exists ex_heap, [(lit "user.age", 0%nat)]. do 2 eexists.
  split; [vm_compute; reflexivity|]. split; [reflexivity|]. split; [vm_compute; reflexivity|]. split; [vm_compute; reflexivity|].
  split; [vm_compute; reflexivity|]. intros [(a & name & I & E & _ & _ & [(_ & M & L)|(l & _ & [(K & _)|(K & _)])])|(o & K & _)];
    try discriminate K. clear I E.
  cbn [no_msg] in M. assert (name = lit "user.age") as ->; [|discriminate L].
  change (lit "Interpreter Warning, unknown attribute " ++ lit "user.age" ++ lit " found in policy." =
          lit "Interpreter Warning, unknown attribute " ++ name ++ lit " found in policy.") in M.
  apply app_inv_head in M. apply app_inv_tail in M. now symmetry.
Qed.
Print Assumptions C113_raised_refuted.
