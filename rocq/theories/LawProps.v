(** * LawProps: rewriting policies (C122) *)

From Coq Require Import NArith ZArith List Bool String Lia.
From Coq Require Import Floats.SpecFloat.
From Verif Require Import PyBase PyNum Lexer LexSpec LexProofs LexProofs2 LexProps Values Ast Parser Grammar
  ParseProofs ParseProofs2 Syntax PrintProofs ParseProps AbsProofs Symbols Interp EvalProofs EvalProofs2
  SymbolProps TypeCheck TypeSpec TypeProofs TypeProps EvalSpec EvalProps EndProps LawSpec.
Import ListNotations.
Open Scope Z_scope.

(** ** Comparisons *)

Lemma str_eqb_sym a b : str_eqb b a = str_eqb a b.
Proof.
  destruct (str_eqb a b) eqn:E1, (str_eqb b a) eqn:E2; auto.
  - apply str_eqb_eq in E1 as ->. rewrite str_eqb_refl in E2. discriminate.
  - apply str_eqb_eq in E2 as ->. rewrite str_eqb_refl in E1. discriminate.
Qed.
Lemma num_cmp_flip x y : num_cmp y x = option_map CompOpp (num_cmp x y).
Proof.
  unfold num_cmp. destruct (ext_of x) as [m e|s|], (ext_of y) as [m' e'|s'|]; try reflexivity.
  - cbn [option_map]. rewrite (Z.min_comm e' e). f_equal. apply Z.compare_antisym.
  - now destruct s'.
  - now destruct s.
  - destruct s, s'; reflexivity.
Qed.
Lemma num_eqb_sym x y : num_eqb y x = num_eqb x y.
Proof. unfold num_eqb. rewrite num_cmp_flip. now destruct (num_cmp x y) as [[]|]. Qed.

Fixpoint vdepth (v : pyval) : nat :=
  match v with
  | VList l | VSet l => S ((fix go l := match l with [] => 0%nat | x :: r => Nat.max (vdepth x) (go r) end) l)
  | _ => 0%nat
  end.
Lemma vdepth_in x l d :
  ((fix go l := match l with [] => 0%nat | x :: r => Nat.max (vdepth x) (go r) end) l <= d)%nat -> In x l -> (vdepth x <= d)%nat.
Proof. induction l as [|y r IH]; intros H []; [subst; lia|]. apply IH; auto. lia. Qed.

Lemma forallb_ext_in {A} (f g : A -> bool) l : (forall x, In x l -> f x = g x) -> forallb f l = forallb g l.
Proof. induction l; cbn; auto. intros H. rewrite H, IHl; auto. Qed.
Lemma existsb_ext_in {A} (f g : A -> bool) l : (forall x, In x l -> f x = g x) -> existsb f l = existsb g l.
Proof. induction l; cbn; auto. intros H. rewrite H, IHl; auto. Qed.

Lemma py_eq_sym v w : py_eq w v = py_eq v w.
Proof.
  assert (G : forall d v w, (vdepth v <= d)%nat -> py_eq w v = py_eq v w).
  { clear v w. induction d as [|d IH]; intros v w Hd.
    - destruct v, w; cbn in Hd; cbn [py_eq as_num]; try lia; auto using num_eqb_sym, str_eqb_sym; try apply num_eqb_sym.
      all: try (destruct t, t0; reflexivity).
    - destruct v, w; cbn in Hd; cbn [py_eq as_num]; auto using num_eqb_sym, str_eqb_sym; try apply num_eqb_sym.
      all: try (destruct t, t0; reflexivity).
      + apply le_S_n in Hd. pose proof (fun x => vdepth_in x l d Hd) as H. clear Hd. revert l0 H.
        induction l as [|x r IHl]; intros [|y m] H; auto. rewrite IH, IHl; auto; [|apply H; now left].
        intros z Hz. apply H. now right.
      + apply le_S_n in Hd. pose proof (fun x => vdepth_in x l d Hd) as H. rewrite andb_comm. f_equal.
        * apply forallb_ext_in. intros x Hx. apply existsb_ext_in. intros y _. auto.
        * apply forallb_ext_in. intros y _. apply existsb_ext_in. intros x Hx. auto. }
  apply (G (vdepth v)). lia.
Qed.

Lemma set_equal_sym l m : set_equal m l = set_equal l m.
Proof.
  unfold set_equal, subset, member. rewrite andb_comm. f_equal.
  - apply forallb_ext_in. intros x _. apply existsb_ext_in. intros y _. apply py_eq_sym.
  - apply forallb_ext_in. intros x _. apply existsb_ext_in. intros y _. apply py_eq_sym.
Qed.
Lemma same_sort_sym v w : same_sort_eq w v = same_sort_eq v w.
Proof.
  unfold same_sort_eq. destruct v, w; cbn [as_num]; auto; try (now rewrite (str_eqb_sym s s0)).
  all: try (rewrite num_cmp_flip; match goal with |- context [num_cmp ?a ?b] => destruct (num_cmp a b) as [[]|] end; reflexivity).
Qed.
Lemma eq_den_sym a b : eq_den b a = eq_den a b.
Proof.
  destruct a, b; cbn [eq_den as_set kval]; auto using same_sort_sym; now rewrite set_equal_sym.
Qed.

Lemma cmp_bool_mirror o o' a b : mirrored o = Some o' -> cmp_bool o' b a = cmp_bool o a b.
Proof.
  destruct o; intros [= <-]; cbn [cmp_bool]; try (rewrite (eq_den_sym a b); reflexivity).
  all: destruct (knum a) as [x|], (knum b) as [y|]; auto; rewrite num_cmp_flip; destruct (num_cmp x y) as [[]|]; reflexivity.
Qed.
Lemma cmp_den_mirror o o' a b : mirrored o = Some o' -> cmp_den o' b a = cmp_den o a b.
Proof. intros H. unfold cmp_den. rewrite (cmp_bool_mirror _ _ _ _ H), orb_comm. reflexivity. Qed.

Lemma hash_mirror o o' a b : mirrored o = Some o' -> hash_fault o' b a = hash_fault o a b.
Proof.
  destruct o; intros [= <-]; cbn [hash_fault]; auto; rewrite (orb_comm (unhashable_members b)); f_equal;
  destruct a, b; auto; apply orb_comm.
Qed.

Lemma opposite_eq o o' a b : opposite o = Some o' -> is_eq o = true -> cmp_bool o' a b = option_map negb (cmp_bool o a b).
Proof.
  destruct o; intros [= <-] H; try discriminate; cbn [cmp_bool]; auto.
  destruct (eq_den a b) as [[]|]; reflexivity.
Qed.
(** An operand that is a number is not NaN. *)
Definition ordered (k : okind) : Prop := forall x, knum k = Some x -> x <> NFloat S754_nan.
Lemma ordered_cmp x y : x <> NFloat S754_nan -> y <> NFloat S754_nan -> num_cmp x y <> None.
Proof.
  assert (X : forall v, v <> NFloat S754_nan -> ext_of v <> ENaN) by (intros [z|[s|s| |s m e]] H; cbn; congruence).
  unfold num_cmp. intros Hx Hy. apply X in Hx, Hy. clear X.
  destruct (ext_of x), (ext_of y); try congruence; intros [=].
Qed.
Lemma opposite_ineq o o' a b : opposite o = Some o' -> is_eq o = false -> ordered a -> ordered b ->
  cmp_bool o' a b = option_map negb (cmp_bool o a b).
Proof.
  intros H E Ha Hb. destruct o; try discriminate; injection H as <-; cbn [cmp_bool];
  (destruct (knum a) as [x|] eqn:Ka, (knum b) as [y|] eqn:Kb; auto;
   pose proof (ordered_cmp x y (Ha _ Ka) (Hb _ Kb)) as N; destruct (num_cmp x y) as [[]|]; try congruence; reflexivity).
Qed.

(** ** Rewriting keeps what evaluation depends on *)

Section Rewriting.
Variable U : unicode.
Variable h : heap.
Variable tb : table.
Notation E := (table_env U h tb).
Notation key := (full_key U).

Definition key_att (k : str) : option (symtype * pyval) :=
  option_map (fun l => (sy_type (hget h l), sy_value (hget h l))) (assoc k tb).
Lemma env_key c n : E c n = key_att (key c n).
Proof. reflexivity. Qed.

Lemma den_truth p :
  den E p = truth U (fun k => match att_kind (key_att k) with KTri t => t | _ => UNDEF end)
                  (fun o x y => cmp_den o (operand_kind E x) (operand_kind E y)) p.
Proof. induction p; cbn [den truth]; auto; congruence. Qed.

Definition leaf_faults (l : leaf) : bool :=
  match l with
  | LConst TRUE => false
  | LConst _ => true
  | LAtt k => match att_kind (key_att k) with KScal _ | KColl _ => true | _ => false end
  | LCmp o x y => cmp_faults E o x y
  end.
Lemma faults_leaves p : faults E p = existsb leaf_faults (leaves U p).
Proof.
  induction p; cbn [faults leaves]; rewrite ?existsb_app; auto; try congruence; cbn [existsb leaf_faults]; rewrite ?orb_false_r; auto.
Qed.

Definition leaf_warns (l : leaf) : list wkind :=
  match l with
  | LConst _ => []
  | LAtt k => match key_att k with
              | None => [WUnknownAtt]
              | Some (_, VNone) => [WNoValue; WBadType]
              | Some (ST_BOOL, VTri UNDEF) => []
              | a => if undefined (att_kind a) then [WBadType] else []
              end
  | LCmp o x y => warns E (PCmp o x y)
  end.
Lemma warns_leaves p : warns E p = flat_map leaf_warns (leaves U p).
Proof.
  induction p; cbn [leaves]; try (cbn [warns]; rewrite ?flat_map_app; congruence);
  cbn [flat_map]; rewrite app_nil_r; reflexivity.
Qed.

Definition kept_in (p q : pol) : Prop :=
  den E p = den E q /\ faults E p = faults E q /\ forall w, In w (warns E p) <-> In w (warns E q).

Lemma existsb_incl {A} (f : A -> bool) l m : (forall x, In x l <-> In x m) -> existsb f l = existsb f m.
Proof.
  intros H. apply eq_true_iff_eq. rewrite !existsb_exists. split; intros (x & Hx & Hf); exists x; split; auto; now apply H.
Qed.
Lemma kept_logic p q : same_truth U p q -> same_leaves U p q -> kept_in p q.
Proof.
  intros Ht Hl. repeat split.
  - rewrite !den_truth. apply Ht.
  - rewrite !faults_leaves. now apply existsb_incl.
  - rewrite !warns_leaves, !in_flat_map. intros (x & Hx & Hw). exists x. split; auto. now apply Hl.
  - rewrite !warns_leaves, !in_flat_map. intros (x & Hx & Hw). exists x. split; auto. now apply Hl.
Qed.

Lemma kept_mirror o o' x y : mirrored o = Some o' -> kept_in (PCmp o x y) (PCmp o' y x).
Proof.
  intros H. split; [|split].
  - cbn [den]. symmetry. now apply cmp_den_mirror.
  - cbn [faults]. unfold cmp_faults. rewrite (orb_comm (zero_operand y)), (orb_comm (undefined (operand_kind E y))).
    now rewrite (hash_mirror _ _ _ _ H).
  - intros w. cbn [warns]. rewrite (cmp_bool_mirror _ _ _ _ H), (orb_comm (undefined (operand_kind E y))).
    rewrite !in_app_iff. tauto.
Qed.

Lemma kept_opposite o o' x y : opposite o = Some o' ->
  cmp_bool o' (operand_kind E x) (operand_kind E y) = option_map negb (cmp_bool o (operand_kind E x) (operand_kind E y)) ->
  kept_in (PNot (PCmp o x y)) (PCmp o' x y).
Proof.
  intros H B. split; [|split].
  - cbn [den]. unfold cmp_den. destruct (_ || _); auto. rewrite B. destruct (cmp_bool o _ _) as [[]|]; reflexivity.
  - cbn [faults]. unfold cmp_faults. do 2 f_equal. destruct o; try discriminate; injection H as <-; reflexivity.
  - intros w. cbn [warns]. rewrite B. rewrite !in_app_iff. destruct (_ || _); [tauto|].
    destruct (cmp_bool o _ _); cbn [option_map]; tauto.
Qed.

Lemma no_nan_ordered x : no_nan E -> is_nan x = false -> ordered (operand_kind E x).
Proof.
  intros Hn Hx v Hv ->. destruct x as [a|l|c n]; cbn [operand_kind] in Hv.
  - destruct a; try discriminate. cbn in Hv. injection Hv as ->. discriminate.
  - discriminate.
  - unfold knum in Hv. destruct (E c n) as [[ty v]|] eqn:Ec; [|discriminate].
    assert (Hf : v = VFloat S754_nan).
    { destruct ty, v; cbn in Hv; try discriminate; try (destruct t; discriminate); congruence. }
    subst v. exact (Hn _ _ _ Ec).
Qed.

Lemma kept_rewrites total p q : rewrites U total p q -> (total = true -> no_nan E) -> kept_in p q.
Proof.
  intros H Hn. induction H as [p q Ht Hl|o o' x y H|o o' x y H Ho|p q _ IH|p q r _ IH1 _ IH2|p p' _ IH|p p' q q' _ IH1 _ IH2|p p' q q' _ IH1 _ IH2].
  - now apply kept_logic.
  - now apply kept_mirror.
  - apply kept_opposite; auto. destruct (is_eq o) eqn:Eo.
    + now apply opposite_eq.
    + destruct Ho as [Ho|(-> & Hx & Hy)]; [discriminate|]. apply opposite_ineq; auto using no_nan_ordered.
  - destruct IH as (D & F & W). split; [|split]; auto. intros w. symmetry. apply W.
  - destruct IH1 as (D & F & W), IH2 as (D' & F' & W'). split; [|split]; try congruence. intros w. now rewrite W.
  - destruct IH as (D & F & W). split; [|split]; auto. cbn. now rewrite D.
  - destruct IH1 as (D & F & W), IH2 as (D' & F' & W'). split; [|split]; cbn; try congruence.
    intros w. rewrite !in_app_iff, W, W'. tauto.
  - destruct IH1 as (D & F & W), IH2 as (D' & F' & W'). split; [|split]; cbn; try congruence.
    intros w. rewrite !in_app_iff, W, W'. tauto.
Qed.
End Rewriting.

(** ** C122 *)

(** Same result and the same kinds of warnings in some order and number, or both raise. *)
Definition agree (x y : interp * res (option rval)) : Prop :=
  match snd x, snd y with
  | Ok r1, Ok r2 => r1 = r2 /\
      forall k, In k (map w_kind (i_warnings (fst x))) <-> In k (map w_kind (i_warnings (fst y)))
  | Err e1, Err e2 => is_warning e1 = is_warning e2
  | _, _ => False
  end.

Lemma spec_agree U h tb level t1 p1 x1 t2 p2 x2 :
  eval_spec U h tb level t1 p1 x1 -> eval_spec U h tb level t2 p2 x2 ->
  kept_in U h (table_of tb) p1 p2 -> compound p1 -> compound p2 -> agree x1 x2.
Proof.
  intros S1 S2 (D & F & W) C1 C2. unfold agree. destruct x1 as [i1 x1], x2 as [i2 x2].
  unfold eval_spec in S1, S2. cbn [fst snd] in *. fold (env_of U h tb) in D, F, W.
  assert (R1 : root_faults (env_of U h tb) p1 = faults (env_of U h tb) p1) by (destruct p1; auto; destruct C1).
  assert (R2 : root_faults (env_of U h tb) p2 = faults (env_of U h tb) p2) by (destruct p2; auto; destruct C2).
  rewrite R1 in S1. rewrite R2 in S2. rewrite <- F, <- D in S2.
  destruct (faults (env_of U h tb) p1).
  { destruct S1 as (e1 & -> & H1). destruct S2 as (e2 & -> & H2). now rewrite (ierr_no_warning _ _ H1), (ierr_no_warning _ _ H2). }
  destruct S1 as (W1 & L1 & T1), S2 as (W2 & L2 & T2). rewrite <- W1, <- W2 in W.
  assert (N : (i_warnings i1 = [] /\ i_warnings i2 = []) \/
              exists w1 ws1 w2 ws2, i_warnings i1 = w1 :: ws1 /\ i_warnings i2 = w2 :: ws2).
  { destruct (i_warnings i1) as [|w1 ws1], (i_warnings i2) as [|w2 ws2]; auto.
    - exfalso. apply (W (w_kind w2)). now left.
    - exfalso. apply (W (w_kind w1)). now left.
    - right. eauto 6. }
  assert (K : match x1, x2 with Ok _, Ok _ => True | Err e1, Err e2 => is_warning e1 = is_warning e2 | _, _ => False end).
  { destruct N as [[N1 N2]|(w1 & ws1 & w2 & ws2 & N1 & N2)]; rewrite N1 in L1; rewrite N2 in L2.
    - destruct L1 as [r1 ->], L2 as [r2 ->]. exact I.
    - destruct level as [z|]; [destruct (z <=? 2)|].
      + rewrite L1, L2. reflexivity.
      + destruct L1 as [r1 ->], L2 as [r2 ->]. exact I.
      + rewrite L1, L2. reflexivity. }
  destruct x1 as [r1|e1], x2 as [r2|e2]; auto. split; auto. now rewrite (T1 _ eq_refl), (T2 _ eq_refl).
Qed.

(** The texts [text1] and [text2] are read as the policies [p] and [q]. *)
Theorem C122_rewriting (U : unicode) (h : heap) (text1 text2 : str) (last1 last2 : Z) (a1 a2 : ast) (n1 n2 : Z)
    (tb : option table) (level : option Z) (total : bool) (p q : pol) :
  unicode_ok U -> heap_ok h -> parse_text U text1 last1 = Ok (a1, n1) -> parse_text U text2 last2 = Ok (a2, n2) ->
  abs (erase a1) = Some p -> abs (erase a2) = Some q -> compound p -> compound q ->
  rewrites U total p q -> (total = true -> no_nan (env_of U h tb)) ->
  agree (evaluate U h (interp_new a1) tb level) (evaluate U h (interp_new a2) tb level).
Proof.
  intros uok Hh Hp1 Hp2 Ha1 Ha2 C1 C2 Hr Hn.
  destruct (first_eval U h text1 last1 a1 n1 tb level uok Hh Hp1) as (q1 & Ha1' & S1).
  destruct (first_eval U h text2 last2 a2 n2 tb level uok Hh Hp2) as (q2 & Ha2' & S2).
  rewrite Ha1 in Ha1'. rewrite Ha2 in Ha2'. injection Ha1' as <-. injection Ha2' as <-.
  eapply spec_agree; eauto. eapply kept_rewrites; eauto.
Qed.

(** The laws of logic may be used anywhere. *)
Theorem C122_laws (U : unicode) (total : bool) (p q : pol) : law p q -> rewrites U total p q.
Proof.
  intros H. apply rw_logic.
  - intros f g. destruct H; cbn [truth];
    repeat match goal with |- context [truth U f g ?x] => is_var x; destruct (truth U f g x) end; reflexivity.
  - intros x. destruct H; cbn [leaves]; rewrite ?in_app_iff; tauto.
Qed.

Lemma rw_refl (U : unicode) (total : bool) (p : pol) : rewrites U total p p.
Proof. apply rw_logic; [intros f g; reflexivity|intros x; tauto]. Qed.

(** If the leaves are not the same, the policies still never decide differently. *)
Theorem C122_decisions (U : unicode) (h : heap) (text1 text2 : str) (last1 last2 : Z) (a1 a2 : ast) (n1 n2 : Z)
    (tb : option table) (level1 level2 : option Z) (p q : pol) (it1 it2 : interp) (r1 r2 : option rval) :
  unicode_ok U -> heap_ok h -> parse_text U text1 last1 = Ok (a1, n1) -> parse_text U text2 last2 = Ok (a2, n2) ->
  abs (erase a1) = Some p -> abs (erase a2) = Some q -> compound p -> compound q -> same_truth U p q ->
  evaluate U h (interp_new a1) tb level1 = (it1, Ok r1) -> evaluate U h (interp_new a2) tb level2 = (it2, Ok r2) ->
  r1 = r2.
Proof.
  intros uok Hh Hp1 Hp2 Ha1 Ha2 C1 C2 Ht E1 E2.
  destruct (C19_evaluation _ _ _ _ _ _ _ _ _ _ uok Hh Hp1 E1) as (p' & Ha1' & R1).
  destruct (C19_evaluation _ _ _ _ _ _ _ _ _ _ uok Hh Hp2 E2) as (q' & Ha2' & R2).
  rewrite Ha1 in Ha1'. rewrite Ha2 in Ha2'. injection Ha1' as <-. injection Ha2' as <-.
  destruct R1 as [->|(c & n & l & -> & _)]; [|destruct C1]. destruct R2 as [->|(c & n & l & -> & _)]; [|destruct C2].
  unfold env_of. rewrite !den_truth. now rewrite (Ht _ _).
Qed.

(** ** Which policies of attributes always agree *)

Section Complete.
Variable U : unicode.
Variable a : str -> tri.

(** The table with the truth values [a] for some attributes. *)
Definition give (l : list (cat * str)) : list op :=
  map (fun x => ODefine (snd x) (Some (cat_type (fst x))) (Some ST_BOOL) (VTri (a (full_key U (fst x) (snd x))))) l.

Definition given (m : spec) : Prop := forall k e, m k = Some e -> e_type e = ST_BOOL /\ e_value e = VTri (a k).

Lemma full_name_key c n : steady_name U (c, n) -> py_lower U (full_name U (Some (cat_type c)) n) = full_key U c n.
Proof.
  intros S. pose proof (S n (or_introl eq_refl)) as S1. pose proof (S _ (or_intror eq_refl)) as S2. cbn [fst snd] in *.
  unfold full_key. rewrite S1, <- S2. unfold full_name. destruct c; reflexivity.
Qed.

Lemma give_spec l : forall m, steady U l -> given m ->
  given (fst (spec_calls U m (give l))) /\
  (forall k, m k <> None -> fst (spec_calls U m (give l)) k <> None) /\
  (forall c n, In (c, n) l -> fst (spec_calls U m (give l)) (full_key U c n) <> None).
Proof.
  induction l as [|[c n] l IH]; intros m St G; [cbn; tauto|].
  assert (St' : steady U l) by (intros x Hx; apply St; now right).
  cbn [give map fst snd spec_calls spec_call]. rewrite (full_name_key c n (St _ (or_introl eq_refl))).
  destruct (m (full_key U c n)) as [e|] eqn:Em.
  - destruct (IH m St' G) as (G1 & K1 & C1). fold (give l). destruct (spec_calls U m (give l)) as [m2 b]. cbn [fst] in *.
    split; [|split]; auto. intros c' n' [[= <- <-]|Hi]; auto. apply K1. congruence.
  - set (m1 := upd m (full_key U c n) (new_entry U n (Some (cat_type c)) (Some ST_BOOL) (VTri (a (full_key U c n))))).
    assert (G' : given m1).
    { intros k e. unfold m1, upd. destruct (str_eqb k (full_key U c n)) eqn:Ek; [|apply G].
      apply str_eqb_eq in Ek as ->. intros [= <-]. split; reflexivity. }
    destruct (IH m1 St' G') as (G1 & K1 & C1). fold (give l). destruct (spec_calls U m1 (give l)) as [m2 b]. cbn [fst] in *.
    split; [|split]; auto.
    + intros k Hk. apply K1. unfold m1, upd. destruct (str_eqb k (full_key U c n)); [discriminate|auto].
    + intros c' n' [[= <- <-]|Hi]; auto. apply K1. unfold m1, upd. rewrite str_eqb_refl. discriminate.
Qed.

Lemma give_heap l : forall h tb, heap_ok h -> heap_ok (fst (fst (calls U (h, tb) (give l)))).
Proof.
  induction l as [|[c n] l IH]; intros h tb Hh; auto. cbn [give map fst snd calls call]. unfold halloc.
  match goal with |- context [st_define U ?x ?t ?k] => destruct (st_define U x t k) as [tb' b] end.
  fold (give l). specialize (IH (h ++ [symbol_new U n (Some (cat_type c)) (Some ST_BOOL) (VTri (a (full_key U c n)))]) tb').
  match goal with |- context [calls U ?s (give l)] => destruct (calls U s (give l)) as [st2 a2] end. cbn [fst] in *.
  apply IH. apply Forall_app. split; auto. constructor; [exact I|constructor].
Qed.

Lemma give_env l h tb c n : steady U l -> fst (calls U ([], []) (give l)) = (h, tb) -> In (c, n) l ->
  table_env U h tb c n = Some (ST_BOOL, VTri (a (full_key U c n))).
Proof.
  intros St Hc Hi. destruct (calls_refines U (give l) ([], []) empty (refines_empty U [])) as [R _].
  rewrite Hc in R. destruct R as [_ R]. cbn [fst snd] in R.
  destruct (give_spec l empty St) as (G & _ & C); [intros k e [=]|].
  specialize (C c n Hi). rewrite R in C. specialize (G (full_key U c n)). rewrite R in G.
  unfold table_env, st_lookup. change (py_lower U (cat_prefix c ++ n)) with (full_key U c n).
  destruct (assoc (full_key U c n) tb) as [loc|]; [|now destruct C]. cbn [option_map] in *.
  destruct (G _ eq_refl) as [G1 G2]. cbn in G1, G2. now rewrite G1, G2.
Qed.

Lemma give_truth l h tb p k : steady U l -> fst (calls U ([], []) (give l)) = (h, tb) -> incl (attributes p) l ->
  of_attributes p -> den (table_env U h tb) p = truth U a k p /\ faults (table_env U h tb) p = false.
Proof.
  intros St Hc. induction p as [t|c n|o x y|q IH|q IH1 r IH2|q IH1 r IH2]; intros Hi Ho; cbn [of_attributes] in Ho; try tauto.
  - cbn [den faults truth]. rewrite (give_env l h tb c n St Hc); [|apply Hi; now left].
    split; [destruct (a (full_key U c n)); reflexivity|]. destruct (a (full_key U c n)); reflexivity.
  - destruct (IH Hi Ho) as [D F]. cbn [den faults truth]. now rewrite D.
  - apply incl_app_inv in Hi as [Hq Hr]. destruct (IH1 Hq (proj1 Ho)) as [D F], (IH2 Hr (proj2 Ho)) as [D' F'].
    cbn [den faults truth]. now rewrite D, D', F, F'.
  - apply incl_app_inv in Hi as [Hq Hr]. destruct (IH1 Hq (proj1 Ho)) as [D F], (IH2 Hr (proj2 Ho)) as [D' F'].
    cbn [den faults truth]. now rewrite D, D', F, F'.
Qed.
End Complete.

(** Two policies of attributes that decide alike with all tables that can be made have the same
    truth values: no other rewriting of such policies is right. *)
Theorem C122_complete (U : unicode) (text1 text2 : str) (last1 last2 : Z) (a1 a2 : ast) (n1 n2 : Z) (p q : pol) :
  unicode_ok U -> parse_text U text1 last1 = Ok (a1, n1) -> parse_text U text2 last2 = Ok (a2, n2) ->
  abs (erase a1) = Some p -> abs (erase a2) = Some q -> compound p -> compound q ->
  of_attributes p -> of_attributes q -> steady U (attributes p ++ attributes q) ->
  ((forall ops r1 r2, let '(h, tb) := fst (calls U ([], []) ops) in
      snd (evaluate U h (interp_new a1) (Some tb) (Some 3)) = Ok r1 ->
      snd (evaluate U h (interp_new a2) (Some tb) (Some 3)) = Ok r2 -> r1 = r2) ->
   same_truth U p q).
Proof.
  intros uok Hp1 Hp2 Ha1 Ha2 C1 C2 O1 O2 St H f g.
  specialize (H (give U f (attributes p ++ attributes q))).
  pose proof (give_heap U f (attributes p ++ attributes q) [] [] (Forall_nil _)) as Hh.
  destruct (fst (calls U ([], []) (give U f (attributes p ++ attributes q)))) as [h tb] eqn:Ec.
  match type of Ec with ?x = _ => change (heap_ok (fst x)) in Hh end. rewrite Ec in Hh. cbn [fst] in Hh.
  destruct (give_truth U f _ h tb p g St Ec) as [D1 F1]; auto using incl_appl, incl_refl.
  destruct (give_truth U f _ h tb q g St Ec) as [D2 F2]; auto using incl_appr, incl_refl.
  destruct (first_eval U h text1 last1 a1 n1 (Some tb) (Some 3) uok Hh Hp1) as (q1 & Ha1' & S1).
  destruct (first_eval U h text2 last2 a2 n2 (Some tb) (Some 3) uok Hh Hp2) as (q2 & Ha2' & S2).
  rewrite Ha1 in Ha1'. rewrite Ha2 in Ha2'. injection Ha1' as <-. injection Ha2' as <-.
  assert (K : forall t w x, compound w -> faults (table_env U h tb) w = false -> eval_spec U h (Some tb) (Some 3) t w x ->
            snd x = Ok (Some (RV (VTri (den (table_env U h tb) w))))).
  { intros t w [i x] Cw Fw Sw. unfold eval_spec, env_of in Sw. cbn [table_of fst snd] in *.
    assert (Rw : root_faults (table_env U h tb) w = false) by (destruct w; auto; destruct Cw).
    rewrite Rw, Fw in Sw. destruct Sw as (_ & L & T). assert (X : exists r, x = Ok r) by (destruct (i_warnings i); exact L).
    destruct X as [r ->]. now rewrite (T r eq_refl). }
  apply (K _ p) in S1; auto. apply (K _ q) in S2; auto. specialize (H _ _ S1 S2). injection H as H. congruence.
Qed.

(** ** What is not right *)

(** What a text is read as, and its evaluation with a table made from attributes. *)
Definition ex_read (text : str) : option pol :=
  match parse_text ascii_only text 0 with Ok (a, _) => abs (erase a) | Err _ => None end.
Definition ex_eval (text : str) (ops : list op) : res (option rval) :=
  match parse_text ascii_only text 0 with
  | Ok (a, _) => let '(h, tb) := fst (calls ascii_only ([], []) ops) in snd (evaluate ascii_only h (interp_new a) (Some tb) (Some 3))
  | Err e => Err e
  end.
Definition ex_nan : list op := [ODefine (lit "score") (Some USR_ATT) (Some ST_FLOAT) (VFloat S754_nan)].
Definition ex_admin : list op := [ODefine (lit "admin") (Some USR_ATT) (Some ST_BOOL) (VBool true)].

(** NOT of an inequality is not the opposite inequality when an attribute is NaN. *)
Theorem C122_opposite_refuted : exists text1 text2 p q ops,
  ex_read text1 = Some p /\ ex_read text2 = Some q /\ rewrites ascii_only true p q /\ compound p /\ compound q /\
  ex_eval text1 ops = tv TRUE /\ ex_eval text2 ops = tv FALSE.
Proof.
  exists (lit "NOT (user.score < 5)"), (lit "user.score >= 5"),
    (PNot (PCmp OpLt (OAtt CatUser (lit "score")) (OAtom (AInt 5)))), (PCmp OpGe (OAtt CatUser (lit "score")) (OAtom (AInt 5))), ex_nan.
  split; [vm_compute; reflexivity|]. split; [vm_compute; reflexivity|].
  split; [apply rw_opposite; auto|]. repeat split; vm_compute; reflexivity.
Qed.

(** Alone, an attribute or TRUE is not evaluated as its double negation. *)
Theorem C122_alone_refuted : exists text1 text2 p ops v,
  ex_read text1 = Some (PNot (PNot p)) /\ ex_read text2 = Some p /\ ex_eval text1 ops = tv v /\ exists e, ex_eval text2 ops = Err e.
Proof.
  exists (lit "NOT (NOT TRUE)"), (lit "TRUE"), (PConst TRUE), [], TRUE.
  split; [vm_compute; reflexivity|]. split; [vm_compute; reflexivity|]. split; [vm_compute; reflexivity|].
  eexists. vm_compute. reflexivity.
Qed.

(** A part that cannot matter is evaluated nevertheless: absorption keeps the truth value, but
    evaluation may raise. *)
Theorem C122_absorption_refuted : exists text1 text2 p q ops,
  ex_read text1 = Some p /\ ex_read text2 = Some q /\ same_truth ascii_only p q /\ compound p /\ compound q /\
  ex_eval text1 ops = tv TRUE /\ exists e, ex_eval text2 ops = Err e.
Proof.
  set (A := PAtt CatUser (lit "admin")). set (B := PCmp OpGt (OAtt CatUser (lit "age")) (OAtom (AInt 0))).
  exists (lit "user.admin OR user.admin"), (lit "user.admin OR user.admin AND user.age > 0"), (POr A A), (POr A (PAnd A B)), ex_admin.
  split; [vm_compute; reflexivity|]. split; [vm_compute; reflexivity|].
  split. { intros f g. unfold A, B. cbn [truth]. destruct (f _), (g _ _ _); reflexivity. }
  split; [exact I|]. split; [exact I|]. split; [vm_compute; reflexivity|]. eexists. vm_compute. reflexivity.
Qed.

(** There is no excluded middle: without the attribute the policy is undefined. *)
Theorem C122_excluded_middle_refuted : exists text p ops,
  ex_read text = Some (POr p (PNot p)) /\ ex_eval text ops = tv UNDEF.
Proof.
  exists (lit "user.age < 18 OR NOT (user.age < 18)"), (PCmp OpLt (OAtt CatUser (lit "age")) (OAtom (AInt 18))), ex_admin.
  split; vm_compute; reflexivity.
Qed.

(** ** Concrete cases *)

Definition ex_text1 : str := lit "NOT (user.age < 18 AND env.open) OR 5 >= object.level".
Definition ex_text2 : str := lit "object.level <= 5 OR (NOT env.open OR user.age >= 18)".
Definition ex_p1 : pol := Eval vm_compute in match ex_read ex_text1 with Some p => p | None => PConst UNDEF end.
Definition ex_p2 : pol := Eval vm_compute in match ex_read ex_text2 with Some p => p | None => PConst UNDEF end.
Definition ex_young : list op :=
  [ODefine (lit "age") (Some USR_ATT) (Some ST_INT) (VInt 17); ODefine (lit "level") (Some OBJ_ATT) (Some ST_INT) (VInt 7)].

(** C122: the hypotheses of C122_rewriting, and both evaluations (the attribute env.open is missing). *)
Example ex_rewrites : ex_read ex_text1 = Some ex_p1 /\ ex_read ex_text2 = Some ex_p2 /\ rewrites ascii_only true ex_p1 ex_p2 /\
  compound ex_p1 /\ compound ex_p2 /\ ex_eval ex_text1 ex_young = tv UNDEF /\ ex_eval ex_text2 ex_young = tv UNDEF.
Proof.
  split; [vm_compute; reflexivity|]. split; [vm_compute; reflexivity|].
  split; [|split; [exact I|split; [exact I|split; vm_compute; reflexivity]]].
  eapply rw_trans; [apply C122_laws, law_or_comm|]. apply rw_or; [now apply rw_mirror|].
  eapply rw_trans; [apply C122_laws, law_not_and|]. eapply rw_trans; [apply C122_laws, law_or_comm|].
  apply rw_or; [apply rw_refl|]. apply rw_opposite; auto.
Qed.
Example ex_no_nan : no_nan (env_of ascii_only (fst (fst (calls ascii_only ([], []) ex_young))) (Some (snd (fst (calls ascii_only ([], []) ex_young))))).
Proof.
  intros c n ty. unfold env_of, table_env. destruct (st_lookup ascii_only _ _) as [l|]; [|discriminate]. cbn [option_map].
  destruct l as [|[|[|l]]]; vm_compute; discriminate.
Qed.

(** C122_complete: two policies of attributes told apart. *)
Example ex_apart : of_attributes (PAnd (PAtt CatUser (lit "a")) (PAtt CatUser (lit "b"))) /\
  of_attributes (POr (PAtt CatUser (lit "a")) (PAtt CatUser (lit "b"))) /\
  ~ same_truth ascii_only (PAnd (PAtt CatUser (lit "a")) (PAtt CatUser (lit "b"))) (POr (PAtt CatUser (lit "a")) (PAtt CatUser (lit "b"))).
Proof.
  split; [cbn; auto|]. split; [cbn; auto|]. intros H.
  specialize (H (fun k => if str_eqb k (lit "user.a") then TRUE else UNDEF) (fun _ _ _ => UNDEF)). vm_compute in H. discriminate.
Qed.
(** Two that are not the same law by law, but the same: the names differ in case only. *)
Example ex_one : same_truth ascii_only (PAnd (PAtt CatUser (lit "A")) (PAtt CatUser (lit "a"))) (PNot (PNot (PAtt CatUser (lit "a")))).
Proof. intros f g. cbn [truth]. change (full_key ascii_only CatUser (lit "A")) with (full_key ascii_only CatUser (lit "a")). now destruct (f _). Qed.

Print Assumptions C122_rewriting.
Print Assumptions C122_laws.
Print Assumptions C122_decisions.
Print Assumptions C122_complete.
Print Assumptions C122_opposite_refuted.
Print Assumptions C122_alone_refuted.
Print Assumptions C122_absorption_refuted.
Print Assumptions C122_excluded_middle_refuted.
