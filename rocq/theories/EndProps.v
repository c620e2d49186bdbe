(** * EndProps: properties of the whole policy language (C71 - C73)

    Lexer, parser, type checker, interpreter and encoder together. *)

From Coq Require Import NArith ZArith List Bool String Lia QArith.
From Coq Require Import Floats.SpecFloat.
From Verif Require Import PyBase PyNum Lexer LexSpec LexProofs LexProofs2 LexProps Values Ast Parser Grammar
  ParseProofs ParseProofs2 Syntax PrintProofs ParseProps AbsProofs Symbols Interp EvalProofs EvalProofs2
  SymbolProps TypeCheck TypeSpec TypeProofs TypeProps CodecSpec CodecProofs CodecProofs2 AstCodec CodecProps EvalSpec EvalProps.
Import ListNotations.
Open Scope Z_scope.

(** ** Evaluations with the same outcome *)

Definition is_warning (e : exc) : bool := match e with EInterpWarning _ => true | _ => false end.
(** Same result and same kinds of warnings, or both raise (a warning or not). *)
Definition alike (x y : interp * res (option rval)) : Prop :=
  match snd x, snd y with
  | Ok r1, Ok r2 => r1 = r2 /\ map w_kind (i_warnings (fst x)) = map w_kind (i_warnings (fst y))
  | Err e1, Err e2 => is_warning e1 = is_warning e2
  | _, _ => False
  end.

Lemma ierr_no_warning t e : ierr t e -> is_warning e = false.
Proof. intros [->|(z & _ & ->)]; reflexivity. Qed.

Lemma spec_alike U h tb level t1 p1 x1 t2 p2 x2 :
  eval_spec U h tb level t1 p1 x1 -> eval_spec U h tb level t2 p2 x2 ->
  (den (env_of U h tb) p1 = den (env_of U h tb) p2 /\ faults (env_of U h tb) p1 = faults (env_of U h tb) p2 /\
   root_faults (env_of U h tb) p1 = root_faults (env_of U h tb) p2 /\ warns (env_of U h tb) p1 = warns (env_of U h tb) p2) ->
  (forall c n, p1 = PAtt c n -> p2 = PAtt c n) ->
  alike x1 x2.
Proof.
  intros S1 S2 (D & F & RF & W) A. unfold alike. destruct x1 as [i1 x1], x2 as [i2 x2].
  unfold eval_spec in S1, S2. cbn [fst snd] in *. rewrite <- D, <- F, <- RF, <- W in S2.
  destruct (root_faults (env_of U h tb) p1).
  { destruct S1 as (e1 & -> & H1). destruct S2 as (e2 & -> & H2). now rewrite (ierr_no_warning _ _ H1), (ierr_no_warning _ _ H2). }
  destruct S1 as (W1 & L1 & R1), S2 as (W2 & L2 & R2). rewrite <- W1 in W2.
  destruct x1 as [r1|e1], x2 as [r2|e2].
  - split; auto. specialize (R1 _ eq_refl). specialize (R2 _ eq_refl).
    destruct (faults (env_of U h tb) p1); [|congruence].
    destruct R1 as (c1 & m1 & l1 & -> & -> & K1). rewrite (A _ _ eq_refl) in R2.
    destruct R2 as (c2 & m2 & l2 & [= <- <-] & -> & K2). congruence.
  - destruct (i_warnings i1), (i_warnings i2); try discriminate.
    + destruct L2 as [? ?]. discriminate.
    + destruct level as [z|]; [destruct (z <=? 2)|]; try discriminate. destruct L2 as [? ?]. discriminate.
  - destruct (i_warnings i1), (i_warnings i2); try discriminate.
    + destruct L1 as [? ?]. discriminate.
    + destruct level as [z|]; [destruct (z <=? 2)|]; try discriminate. destruct L1 as [? ?]. discriminate.
  - destruct (i_warnings i1), (i_warnings i2); try discriminate.
    + destruct L1 as [? ?]. discriminate.
    + destruct level as [z|]; [destruct (z <=? 2)|].
      * injection L1 as ->. injection L2 as ->. reflexivity.
      * destruct L1 as [? ?]. discriminate.
      * injection L1 as ->. injection L2 as ->. reflexivity.
Qed.

(** ** C71 *)

(** Two texts that stand for the same policy evaluate alike. *)
Theorem C71_evaluation (U : unicode) (h : heap) (text1 text2 : str) (last1 last2 : Z) (a1 a2 : ast) (n1 n2 : Z)
    (tb : option table) (level : option Z) (p : pol) :
  unicode_ok U -> heap_ok h ->
  parse_text U text1 last1 = Ok (a1, n1) -> parse_text U text2 last2 = Ok (a2, n2) ->
  abs (erase a1) = Some p -> abs (erase a2) = Some p ->
  alike (evaluate U h (interp_new a1) tb level) (evaluate U h (interp_new a2) tb level).
Proof.
  intros uok Hh Hp1 Hp2 Ha1 Ha2.
  destruct (first_eval U h text1 last1 a1 n1 tb level uok Hh Hp1) as (q1 & Ha1' & S1).
  destruct (first_eval U h text2 last2 a2 n2 tb level uok Hh Hp2) as (q2 & Ha2' & S2).
  rewrite Ha1 in Ha1'. rewrite Ha2 in Ha2'. injection Ha1' as <-. injection Ha2' as <-.
  eapply spec_alike; eauto.
Qed.

(** However a policy is written: parentheses, spelling of the words, blanks. *)
Theorem C71_rendering (U : unicode) (h : heap) (p : pol) (ws1 ws2 : list word) (items1 items2 : list (str * str))
    (trail1 trail2 : str) (last1 last2 : Z) (tb : option table) (level : option Z) :
  unicode_ok U -> heap_ok h -> w_pol p ws1 -> w_pol p ws2 ->
  Forall2 (fun it w => Forall (space U) (fst it) /\ lexeme U (snd it) [] (fst w) (snd w)) items1 ws1 ->
  Forall2 (fun it w => Forall (space U) (fst it) /\ lexeme U (snd it) [] (fst w) (snd w)) items2 ws2 ->
  Forall (fun it => fst it <> []) (tl items1) -> Forall (fun it => fst it <> []) (tl items2) ->
  Forall (space U) trail1 -> Forall (space U) trail2 ->
  exists a1 n1 a2 n2, parse_text U (layout items1 trail1) last1 = Ok (a1, n1) /\
    parse_text U (layout items2 trail2) last2 = Ok (a2, n2) /\
    alike (evaluate U h (interp_new a1) tb level) (evaluate U h (interp_new a2) tb level).
Proof.
  intros uok Hh Hw1 Hw2 F1 F2 T1 T2 B1 B2.
  destruct (C12_any_rendering U p ws1 items1 trail1 last1 uok Hw1 F1 T1 B1) as (a1 & n1 & P1 & A1).
  destruct (C12_any_rendering U p ws2 items2 trail2 last2 uok Hw2 F2 T2 B2) as (a2 & n2 & P2 & A2).
  exists a1, n1, a2, n2. repeat split; auto. eapply C71_evaluation; eauto.
Qed.

(** The type checker agrees too: same verdict, same kinds of issues in the same order,
    same inferred types. *)
Definition issue_kind (i : issue) : Z * check_name := (is_type i, is_check i).
Fixpoint kinds_after (U : unicode) (before ks : list (cmp * operand * operand)) : list (Z * check_name) :=
  match ks with
  | [] => []
  | (o, l, r) :: rest =>
      (if ill_typed o l r then [(3, class_check o)]
       else if doubtful (inferred U before) o l r then [(2, AttCheck)] else []) ++
      kinds_after U (before ++ [(o, l, r)]) rest
  end.
Lemma kinds_of U ks : forall before, map issue_kind (issues_after U before ks) = kinds_after U before (map abstract ks).
Proof.
  induction ks as [|k ks IH]; intros before; [reflexivity|]. cbn [issues_after map]. rewrite map_app, IH.
  destruct k as [o l r t lt rt]. unfold abstract at 1 3, issue_of. cbn [k_op k_left k_right kinds_after]. f_equal.
  destruct (ill_typed o l r); [reflexivity|]. now destruct (doubtful _ o l r).
Qed.


(** The checks of any tree that stands for a policy. *)
Lemma tree_checks U a p levels : typed (erase a) -> abs (erase a) = Some p -> steady U (attributes p) ->
  let '(c', rs) := checks U (checker_new a) levels in
  let m' := List.length levels in
    tinv U (tc_state c') (times m' (attributes p)) (map abstract (times m' (comparisons (erase a))))
       (issues U (times m' (comparisons (erase a)))) /\
    (levels <> [] -> tc_checked c' = true).
Proof.
  intros Ht Ha Hn.
  assert (Q : tinv U (tc_state (checker_new a)) (times 0 (attributes p)) (map abstract (times 0 (comparisons (erase a))))
     (issues U (times 0 (comparisons (erase a))))) by (split; cbn; auto; intros k l []).
  assert (K : known_only U (times 0 (attributes p)) (map abstract (times 0 (comparisons (erase a))))) by (intros x; now left).
  assert (A : psteady U (attributes p)) by (apply Forall_forall; exact Hn).
  pose proof (checks_all U p levels (checker_new a) 0 Ha Ht A Q K) as R.
  destruct (checks U (checker_new a) levels) as [c' rs]. cbn [Nat.add tc_ast checker_new] in R.
  destruct R as (R1 & R2 & _). split; assumption.
Qed.

Lemma tree_result U a p level levels : typed (erase a) -> abs (erase a) = Some p -> steady U (attributes p) ->
  let c := fst (checks U (checker_new a) (level :: levels)) in
  let ks := times (S (List.length levels)) (pol_comparisons p) in
  map issue_kind (get_issues c) = kinds_after U [] ks /\
  get_result c = match kinds_after U [] ks with
                 | [] => ResPass
                 | l => if existsb (fun i => fst i =? 3) l then ResError else ResWarn
                 end /\
  forall d n, In (d, n) (attributes p) ->
    st_lookup_type U (ts_heap (tc_state c)) (ts_table (tc_state c)) (cat_word d ++ n) =
    Some (inferred U (pol_comparisons p) (d, n)).
Proof.
  intros Ht Ha Hn. pose proof (tree_checks U a p (level :: levels) Ht Ha Hn) as Q.
  destruct (checks U (checker_new a) (level :: levels)) as [c rs]. destruct Q as [I C]. specialize (C ltac:(discriminate)).
  cbn [fst List.length] in *. cbv zeta.
  assert (E : map issue_kind (get_issues c) = kinds_after U [] (times (S (List.length levels)) (pol_comparisons p))).
  { unfold get_issues. rewrite (ti_issues _ _ _ _ _ I). unfold issues. rewrite kinds_of, times_map, (comparisons_abs _ p Ha). reflexivity. }
  split; [exact E|]. split.
  - rewrite <- E. unfold get_result, get_issues. rewrite C. cbn [negb].
    destruct (ts_issues (tc_state c)) as [|i l]; [reflexivity|]. cbn [map].
    assert (X : forall l, existsb (fun i => fst i =? 3) (map issue_kind l) = existsb (fun i => is_type i =? 3) l).
    { intros m. induction m as [|j m IH]; cbn; [reflexivity|]. now rewrite IH. }
    rewrite <- (X (i :: l)). reflexivity.
  - intros d n Hi.
    assert (Hi' : In (d, n) (times (S (List.length levels)) (attributes p))) by (cbn; apply in_or_app; auto).
    destruct (tinv_lookup _ _ _ _ _ _ _ I Hi' (Hn _ Hi)) as (l & El & _ & x & Kx & _ & _ & G).
    unfold st_lookup_type, st_lookup. change (cat_word d) with (cat_prefix d).
    rewrite (cat_key U d n (Hn _ Hi)), El. cbn [option_map].
    rewrite G. unfold att_symbol. cbn [sy_type]. f_equal. rewrite times_map, inferred_times, (comparisons_abs _ p Ha).
    now apply inferred_key.
Qed.

Theorem C71_types (U : unicode) (text1 text2 : str) (last1 last2 : Z) (a1 a2 : ast) (n1 n2 : Z) (p : pol)
    (level : Z) (levels : list Z) :
  unicode_ok U -> parse_text U text1 last1 = Ok (a1, n1) -> parse_text U text2 last2 = Ok (a2, n2) ->
  abs (erase a1) = Some p -> abs (erase a2) = Some p -> steady U (attributes p) ->
  let c1 := fst (checks U (checker_new a1) (level :: levels)) in
  let c2 := fst (checks U (checker_new a2) (level :: levels)) in
  map issue_kind (get_issues c1) = map issue_kind (get_issues c2) /\ get_result c1 = get_result c2 /\
  forall c n, In (c, n) (attributes p) ->
    st_lookup_type U (ts_heap (tc_state c1)) (ts_table (tc_state c1)) (cat_word c ++ n) =
    st_lookup_type U (ts_heap (tc_state c2)) (ts_table (tc_state c2)) (cat_word c ++ n).
Proof.
  intros uok P1 P2 A1 A2 Hn. cbv zeta.
  pose proof (tree_result U a1 p level levels (parsed_typed _ _ _ _ _ uok P1) A1 Hn) as (I1 & R1 & T1).
  pose proof (tree_result U a2 p level levels (parsed_typed _ _ _ _ _ uok P2) A2 Hn) as (I2 & R2 & T2).
  rewrite I1, I2, R1, R2. repeat split; auto. intros c n Hi. rewrite T1, T2; auto.
Qed.

(** ** C72 *)

(** Policies that differ at most in the representation of equal floats. *)
Inductive atom_like : atom -> atom -> Prop :=
| al_refl a : atom_like a a
| al_float f g : float_eqb f g = true -> atom_like (AFloat f) (AFloat g).
Inductive operand_like : operand -> operand -> Prop :=
| ol_atom a b : atom_like a b -> operand_like (OAtom a) (OAtom b)
| ol_set l m : Forall2 atom_like l m -> operand_like (OSet l) (OSet m)
| ol_att c n : operand_like (OAtt c n) (OAtt c n).
Inductive pol_like : pol -> pol -> Prop :=
| pl_const t : pol_like (PConst t) (PConst t)
| pl_att c n : pol_like (PAtt c n) (PAtt c n)
| pl_cmp o l r l' r' : operand_like l l' -> operand_like r r' -> pol_like (PCmp o l r) (PCmp o l' r')
| pl_not p p' : pol_like p p' -> pol_like (PNot p) (PNot p')
| pl_and p q p' q' : pol_like p p' -> pol_like q q' -> pol_like (PAnd p q) (PAnd p' q')
| pl_or p q p' q' : pol_like p p' -> pol_like q q' -> pol_like (POr p q) (POr p' q').

(** Values. *)
Inductive val_like : pyval -> pyval -> Prop :=
| vl_refl v : val_like v v
| vl_float f g : float_eqb f g = true -> val_like (VFloat f) (VFloat g).

Lemma atom_val_like a b : atom_like a b -> val_like (atom_val a) (atom_val b).
Proof. destruct 1; constructor; auto. Qed.
Lemma atoms_val_like l m : Forall2 atom_like l m -> Forall2 val_like (map atom_val l) (map atom_val m).
Proof. induction 1; cbn; constructor; auto. now apply atom_val_like. Qed.
Lemma vals_refl l : Forall2 val_like l l.
Proof. induction l; constructor; auto. constructor. Qed.

(** The exact value of a number decides all its comparisons. *)
Definition rel (o : Datatypes.comparison) (a b : real) : Prop :=
  match o with Lt => rlt a b | Eq => req a b | Gt => rlt b a end.
Lemma rel_unique o1 o2 a b : rel o1 a b -> rel o2 a b -> o1 = o2.
Proof.
  intros H1 H2. destruct o1, o2; auto; exfalso; cbn [rel] in *;
  match goal with H : rlt _ _ |- _ => apply rlt_excl in H; tauto end.
Qed.
Lemma rel_left o a b c : req a b -> rel o a c -> rel o b c.
Proof. destruct o, a as [p| |], b as [q| |], c as [r| |]; cbn; try tauto; intros E; now rewrite E. Qed.
Lemma rel_right o a b c : req a b -> rel o c a -> rel o c b.
Proof. destruct o, a as [p| |], b as [q| |], c as [r| |]; cbn; try tauto; intros E; now rewrite E. Qed.
Lemma num_cmp_rel x y a b : real_of x = Some a -> real_of y = Some b -> exists o, num_cmp x y = Some o /\ rel o a b.
Proof.
  intros Hx Hy. pose proof (num_cmp_spec x y) as S. destruct (num_cmp x y) as [o|]; [|destruct S; congruence].
  destruct S as (a' & b' & E1 & E2 & C). exists o. split; auto. rewrite Hx in E1. rewrite Hy in E2.
  injection E1 as <-. injection E2 as <-. exact C.
Qed.
Lemma num_cmp_nan x y : real_of x = None \/ real_of y = None -> num_cmp x y = None.
Proof.
  intros H. pose proof (num_cmp_spec x y) as S. destruct (num_cmp x y) as [o|]; auto.
  destruct S as (a' & b' & E1 & E2 & C). destruct H; congruence.
Qed.
Lemma num_cmp_eq x y z : num_cmp x y = Some Eq -> num_cmp x z = num_cmp y z /\ num_cmp z x = num_cmp z y.
Proof.
  intros H. pose proof (num_cmp_spec x y) as S. rewrite H in S. destruct S as (a & b & Ha & Hb & Hab).
  destruct (real_of z) as [c|] eqn:Hz.
  - destruct (num_cmp_rel x z a c Ha Hz) as (o1 & E1 & R1). destruct (num_cmp_rel y z b c Hb Hz) as (o2 & E2 & R2).
    destruct (num_cmp_rel z x c a Hz Ha) as (o3 & E3 & R3). destruct (num_cmp_rel z y c b Hz Hb) as (o4 & E4 & R4).
    apply (rel_left _ _ b) in R1; auto. apply (rel_right _ _ b) in R3; auto.
    rewrite E1, E2, E3, E4. split; f_equal; eapply rel_unique; eauto.
  - rewrite !num_cmp_nan by auto. auto.
Qed.
Lemma float_eqb_cmp f g : float_eqb f g = true -> num_cmp (NFloat f) (NFloat g) = Some Eq.
Proof. unfold float_eqb, num_eqb. destruct (num_cmp _ _) as [[]|]; try discriminate; auto. Qed.

Inductive num_like : option num -> option num -> Prop :=
| nl_refl x : num_like x x
| nl_float f g : float_eqb f g = true -> num_like (Some (NFloat f)) (Some (NFloat g)).
Lemma num_like_cmp x x' y y' : num_like (Some x) (Some x') -> num_like (Some y) (Some y') -> num_cmp x y = num_cmp x' y'.
Proof.
  intros Hx Hy. assert (E : num_cmp x y = num_cmp x' y).
  { inversion Hx as [|f g Hf]; subst; auto. apply float_eqb_cmp in Hf. now apply (num_cmp_eq _ _ y) in Hf. }
  rewrite E. inversion Hy as [|f g Hf]; subst; auto. apply float_eqb_cmp in Hf. now apply (num_cmp_eq _ _ x') in Hf.
Qed.
Lemma as_num_like v w : val_like v w -> num_like (as_num v) (as_num w).
Proof. destruct 1; constructor; auto. Qed.

Lemma py_eq_like v v' w w' : val_like v v' -> val_like w w' -> py_eq v w = py_eq v' w'.
Proof.
  intros Hv Hw.
  assert (N : forall x x' y y', num_like (Some x) (Some x') -> num_like (Some y) (Some y') -> num_eqb x y = num_eqb x' y').
  { intros x x' y y' H1 H2. unfold num_eqb. now rewrite (num_like_cmp x x' y y'). }
  assert (R : forall x, num_like (Some x) (Some x)) by (intros; constructor).
  destruct Hv as [v|f g Hf], Hw as [w|f' g' Hf']; auto.
  - destruct v; cbn; auto; apply N; auto; constructor; auto.
  - destruct w; cbn; auto; apply N; auto; constructor; auto.
  - cbn. apply N; constructor; auto.
Qed.
Lemma member_like v v' l l' : val_like v v' -> Forall2 val_like l l' -> member v l = member v' l'.
Proof. intros Hv H. unfold member. induction H; cbn; auto. rewrite (py_eq_like v v' x y); auto. now f_equal. Qed.
Lemma rmember_like v v' l l' : val_like v v' -> Forall2 val_like l l' ->
  existsb (fun x => py_eq x v) l = existsb (fun x => py_eq x v') l'.
Proof. intros Hv H. induction H; cbn; auto. rewrite (py_eq_like x y v v'); auto. now f_equal. Qed.
Lemma subset_like l l' m m' : Forall2 val_like l l' -> Forall2 val_like m m' -> subset l m = subset l' m'.
Proof. intros H Hm. unfold subset. induction H; cbn; auto. rewrite (member_like x y m m'); auto. now f_equal. Qed.
Lemma meet_like l l' m m' : Forall2 val_like l l' -> Forall2 val_like m m' -> meet l m = meet l' m'.
Proof. intros H Hm. unfold meet. induction Hm; cbn; auto. rewrite (member_like x y l l'); auto. now f_equal. Qed.
Lemma set_equal_like l l' m m' : Forall2 val_like l l' -> Forall2 val_like m m' -> set_equal l m = set_equal l' m'.
Proof.
  intros H Hm. unfold set_equal. rewrite (subset_like l l' m m') by auto. f_equal.
  induction Hm; cbn; auto. rewrite (rmember_like x y l l'); auto. now f_equal.
Qed.

(** Kinds of operands. *)
Inductive kind_like : okind -> okind -> Prop :=
| kl_refl k : kind_like k k
| kl_atom a b : atom_like a b -> kind_like (KAtom a) (KAtom b)
| kl_lit l m : Forall2 atom_like l m -> kind_like (KLit l) (KLit m).

Lemma operand_kind_like E x y : operand_like x y -> kind_like (operand_kind E x) (operand_kind E y).
Proof. destruct 1; cbn; constructor; auto. Qed.
Lemma kval_like k k' : kind_like k k' ->
  match kval k, kval k' with Some v, Some w => val_like v w | None, None => True | _, _ => False end.
Proof. destruct 1; cbn; auto. - destruct (kval k); [constructor|exact I]. - now apply atom_val_like. Qed.
Lemma knum_like k k' : kind_like k k' -> num_like (knum k) (knum k').
Proof.
  intros H. apply kval_like in H. unfold knum. destruct (kval k), (kval k'); try contradiction; [|constructor].
  now apply as_num_like.
Qed.
Definition set_like (x y : option (list pyval)) : Prop :=
  match x, y with Some l, Some m => Forall2 val_like l m | None, None => True | _, _ => False end.
Lemma as_set_like k k' j j' : kind_like k k' -> kind_like j j' -> set_like (as_set k j) (as_set k' j').
Proof.
  intros Hk Hj. destruct Hk as [k|a b Ha|l m Hl]; cbn.
  - destruct k; cbn; auto; try apply vals_refl. destruct Hj; cbn; try apply vals_refl; auto. destruct k; cbn; auto; apply vals_refl.
  - exact I.
  - now apply atoms_val_like.
Qed.
Lemma same_sort_like v v' w w' : val_like v v' -> val_like w w' -> same_sort_eq v w = same_sort_eq v' w'.
Proof.
  intros Hv Hw. destruct Hv as [v|f g Hf], Hw as [w|f' g' Hf']; auto.
  - destruct v; cbn [same_sort_eq as_num]; auto;
    (erewrite (num_like_cmp _ _ (NFloat f') (NFloat g')); [reflexivity|apply nl_refl|now constructor]).
  - destruct w; cbn [same_sort_eq as_num]; auto;
    (erewrite (num_like_cmp (NFloat f) (NFloat g)); [reflexivity|now constructor|apply nl_refl]).
  - cbn [same_sort_eq as_num]. erewrite (num_like_cmp (NFloat f) (NFloat g) (NFloat f') (NFloat g')); [reflexivity|now constructor|now constructor].
Qed.

Lemma cmp_bool_like o k k' j j' : kind_like k k' -> kind_like j j' -> cmp_bool o k j = cmp_bool o k' j'.
Proof.
  intros Hk Hj.
  assert (Num : match knum k, knum j with Some x, Some y => Some (num_cmp x y) | _, _ => None end =
                match knum k', knum j' with Some x, Some y => Some (num_cmp x y) | _, _ => None end).
  { pose proof (knum_like k k' Hk) as H1. pose proof (knum_like j j' Hj) as H2.
    destruct (knum k) as [x|], (knum k') as [x'|]; try (now inversion H1);
    destruct (knum j) as [y|], (knum j') as [y'|]; try (now inversion H2); auto.
    now rewrite (num_like_cmp x x' y y'). }
  assert (Ineq : forall q, match knum k, knum j with Some x, Some y => Some (ineq q (num_cmp x y)) | _, _ => None end =
                match knum k', knum j' with Some x, Some y => Some (ineq q (num_cmp x y)) | _, _ => None end).
  { intros q. destruct (knum k), (knum j), (knum k'), (knum j'); try discriminate; auto. now injection Num as ->. }
  assert (Eq : eq_den k j = eq_den k' j').
  { assert (V : match kval k, kval j with Some x, Some y => same_sort_eq x y | _, _ => None end =
                match kval k', kval j' with Some x, Some y => same_sort_eq x y | _, _ => None end).
    { pose proof (kval_like k k' Hk) as H1. pose proof (kval_like j j' Hj) as H2.
      destruct (kval k), (kval k'); try contradiction; destruct (kval j), (kval j'); try contradiction; auto.
      now apply same_sort_like. }
    destruct Hk as [k|a b Ha|l m Hl], Hj as [j|a' b' Ha'|l' m' Hl']; try reflexivity; try exact V;
    try (destruct k; exact V); try (destruct j; exact V).
    - destruct k; try exact V. cbn. f_equal. apply set_equal_like; [apply vals_refl|now apply atoms_val_like].
    - destruct j; try exact V. cbn. f_equal. apply set_equal_like; [now apply atoms_val_like|apply vals_refl].
    - cbn. f_equal. apply set_equal_like; now apply atoms_val_like. }
  destruct o; cbn [cmp_bool]; auto; try now rewrite Eq.
  - unfold in_den. pose proof (as_set_like j j' k k' Hj Hk) as S. unfold set_like in S.
    destruct (as_set j k) as [m|], (as_set j' k') as [m'|]; try contradiction; auto.
    destruct Hk as [k|a b Ha|l n Hl].
    + destruct k; auto; f_equal; try (apply member_like; [constructor|auto]); apply meet_like; auto; apply vals_refl.
    + f_equal. apply member_like; auto. now apply atom_val_like.
    + f_equal. apply meet_like; auto. now apply atoms_val_like.
  - unfold subset_den. pose proof (as_set_like j j' k k' Hj Hk) as S. pose proof (as_set_like k k' j j' Hk Hj) as S2.
    unfold set_like in *.
    destruct (as_set j k), (as_set j' k'); try contradiction; destruct (as_set k j), (as_set k' j'); try contradiction; auto.
    f_equal. now apply subset_like.
Qed.

Lemma undefined_like k k' : kind_like k k' -> undefined k = undefined k'.
Proof. now destruct 1. Qed.
Lemma has_null_like k k' : kind_like k k' -> has_null k = has_null k'.
Proof.
  destruct 1 as [| |l m H]; auto. cbn. induction H as [|x y l m Hx _ IH]; cbn; auto. rewrite IH. f_equal. now destruct Hx.
Qed.
Lemma unhashable_like k k' : kind_like k k' -> unhashable_members k = unhashable_members k'.
Proof. now destruct 1. Qed.
Lemma null_first_like l m m' : Forall2 atom_like m m' -> null_first l m = null_first l m'.
Proof.
  induction 1 as [|x y m m' H _ IH]; auto. destruct H as [a|f g Hf].
  - cbn. now rewrite IH.
  - cbn [null_first]. rewrite IH, (member_like (atom_val (AFloat f)) (atom_val (AFloat g)) l l); auto; [now constructor|apply vals_refl].
Qed.
Lemma hash_fault_like o k k' j j' : kind_like k k' -> kind_like j j' -> hash_fault o k j = hash_fault o k' j'.
Proof.
  intros Hk Hj.
  assert (Lit : match k, j with KLit _, KLit _ => has_null k || has_null j | _, _ => false end =
                match k', j' with KLit _, KLit _ => has_null k' || has_null j' | _, _ => false end).
  { pose proof (has_null_like k k' Hk) as H1. pose proof (has_null_like j j' Hj) as H2.
    destruct Hk as [k|a b Ha|l m Hl], Hj as [j|a' b' Ha'|l' m' Hl']; auto.
    - destruct k; auto. now rewrite H2.
    - destruct j; auto. now rewrite H1.
    - now rewrite H1, H2. }
  assert (In : match k, j with KAtom ANull, KColl _ => true | KColl l, KLit m => null_first l m | _, _ => false end =
               match k', j' with KAtom ANull, KColl _ => true | KColl l, KLit m => null_first l m | _, _ => false end).
  { destruct Hk as [k|a b Ha|l m Hl], Hj as [j|a' b' Ha'|l' m' Hl']; auto; try (destruct Ha; auto; fail);
    destruct k as [| |[]| | |]; auto. now apply null_first_like. }
  pose proof (unhashable_like k k' Hk) as Uk. pose proof (unhashable_like j j' Hj) as Uj.
  pose proof (has_null_like k k' Hk) as Nk. pose proof (has_null_like j j' Hj) as Nj.
  destruct o; cbn [hash_fault]; try reflexivity.
  - now rewrite Uk, Uj, Lit.
  - now rewrite Uk, Uj, Lit.
  - now rewrite Uk, Uj, In.
  - now rewrite Uk, Uj, Nk, Nj.
Qed.

Lemma zero_atom_like a b : atom_like a b -> zero_atom a = zero_atom b.
Proof.
  destruct 1 as [|f g H]; auto. apply float_eqb_cmp in H.
  assert (Z : forall x, zero_atom (AFloat x) = match num_cmp (NFloat x) (NInt 0) with Some Eq => true | _ => false end).
  { intros [s|s| |s m e]; try reflexivity; [now destruct s|].
    cbn [zero_atom]. unfold num_cmp. cbn [ext_of]. cbv zeta. rewrite Z.mul_0_l.
    assert (P : 0 < 2 ^ (e - Z.min e 0)) by (apply Z.pow_pos_nonneg; lia). destruct s.
    - destruct (Z.compare_spec (Z.neg m * 2 ^ (e - Z.min e 0)) 0) as [C|C|C]; auto. nia.
    - destruct (Z.compare_spec (Z.pos m * 2 ^ (e - Z.min e 0)) 0) as [C|C|C]; auto. nia. }
  rewrite !Z. now rewrite (proj1 (num_cmp_eq _ _ (NInt 0) H)).
Qed.
Lemma zero_operand_like x y : operand_like x y -> zero_operand x = zero_operand y.
Proof.
  destruct 1 as [a b H|l m H|]; cbn; auto; [now apply zero_atom_like|].
  induction H as [|a b l m H _ IH]; cbn; auto. rewrite IH. f_equal. now apply zero_atom_like.
Qed.

Lemma pol_like_meaning E p q : pol_like p q ->
  den E p = den E q /\ faults E p = faults E q /\ root_faults E p = root_faults E q /\ warns E p = warns E q.
Proof.
  assert (C : forall o l r l' r', operand_like l l' -> operand_like r r' ->
     cmp_faults E o l r = cmp_faults E o l' r' /\ den E (PCmp o l r) = den E (PCmp o l' r') /\ warns E (PCmp o l r) = warns E (PCmp o l' r')).
  { intros o l r l' r' Hl Hr. pose proof (operand_kind_like E _ _ Hl) as Kl. pose proof (operand_kind_like E _ _ Hr) as Kr.
    unfold cmp_faults. cbn [den warns]. unfold cmp_den.
    rewrite (zero_operand_like l l'), (zero_operand_like r r'), <- (undefined_like _ _ Kl), <- (undefined_like _ _ Kr),
      <- (hash_fault_like o _ _ _ _ Kl Kr), <- (cmp_bool_like o _ _ _ _ Kl Kr) by auto.
    repeat split. assert (W : forall x y, operand_like x y -> operand_warns E x = operand_warns E y) by now destruct 1.
    now rewrite (W l l'), (W r r'). }
  induction 1 as [t|c n|o l r l' r' Hl Hr|p p' H (D & F & _ & W)|p q p' q' H (D & F & _ & W) H' (D' & F' & _ & W')|
                  p q p' q' H (D & F & _ & W) H' (D' & F' & _ & W')]; auto.
  - destruct (C o l r l' r' Hl Hr) as (F & D & W). cbn [faults root_faults]. auto.
  - cbn. now rewrite D, F, W.
  - cbn. now rewrite D, F, W, D', F', W'.
  - cbn. now rewrite D, F, W, D', F', W'.
Qed.

(** The policy of a decoded tree. *)
Lemma same_fresh U a : forall b, same_tree U a b -> fresh U b.
Proof.
  induction a as [c t i r ks IH] using ast_ind'. intros [c' t' i' r' ks'] H.
  apply same_tree_unfold in H as (_ & _ & _ & _ & _ & _ & R & F). apply fresh_unfold. split; auto.
  clear - IH F. revert IH. induction F as [|x y l m H _ IHF]; intros IH; constructor; inversion IH; subst; auto.
Qed.
Lemma same_typed U a : forall b, same_tree U a b -> typed (erase a) -> typed (erase b).
Proof.
  induction a as [c t i r ks IH] using ast_ind'. intros [c' t' i' r' ks'] H Ht. cbn [erase] in *.
  apply same_tree_unfold in H as (-> & _ & Ty & _ & _ & _ & _ & F). apply typed_inv in Ht as [H1 H2]. constructor.
  - intros ty. rewrite Ty. intros Hc. apply H1. destruct c; cbn in *; auto.
  - clear - IH F H2. revert IH H2. induction F as [|x y l m H _ IHF]; intros IH H2; cbn; constructor; inversion IH; inversion H2; subst; auto.
Qed.
Lemma same_str v w s : tokval_eqb v w = true -> same_kind v w = true -> v = TStr s -> w = TStr s.
Proof. intros E K ->. destruct w; try discriminate. cbn in E. apply str_eqb_eq in E. now subst. Qed.
Lemma same_atom U a b x : same_tree U a b -> abs_atom (erase a) = Some x ->
  exists y, abs_atom (erase b) = Some y /\ atom_like x y.
Proof.
  destruct a as [c [ty tp v] i r ks], b as [c' [ty' tp' v'] i' r' ks']. intros H Ha.
  apply same_tree_unfold in H as (-> & _ & _ & _ & E & K & _ & F). cbn [t_val] in *. cbn [erase] in *.
  pose proof (abs_atom_leaf _ _ _ _ Ha) as [Hk _]. destruct ks as [|]; [|discriminate]. inversion F; subst ks'. cbn [map] in *.
  destruct c; try discriminate Ha; cbn [plain]; destruct v; try discriminate Ha; destruct v'; try discriminate K; cbn in Ha |- *;
    injection Ha as <-; eexists; (split; [reflexivity|]); try (apply al_refl).
  - cbn in E. apply Z.eqb_eq in E. subst. apply al_refl.
  - apply al_float. exact E.
  - cbn in E. apply str_eqb_eq in E. subst. apply al_refl.
Qed.
Lemma same_atoms U ks ks' : Forall2 (same_tree U) ks ks' -> forall l, optM abs_atom (map erase ks) = Some l ->
  exists m, optM abs_atom (map erase ks') = Some m /\ Forall2 atom_like l m.
Proof.
  induction 1 as [|a b ks ks' H _ IH]; intros l; cbn [map optM].
  - intros [= <-]. exists []. split; auto.
  - destruct (abs_atom (erase a)) as [x|] eqn:Ea; [|discriminate]. destruct (optM abs_atom (map erase ks)) as [xs|]; [|discriminate].
    intros [= <-]. destruct (same_atom U a b x H Ea) as (y & -> & L). destruct (IH xs eq_refl) as (ys & -> & Ls). eauto.
Qed.
Lemma same_operand_abs U a b x : same_tree U a b -> abs_operand (erase a) = Some x ->
  exists y, abs_operand (erase b) = Some y /\ operand_like x y.
Proof.
  intros H Ha. destruct a as [c t i r ks], b as [c' t' i' r' ks']. pose proof H as H0.
  apply same_tree_unfold in H as (-> & _ & _ & _ & E & K & _ & F). cbn [erase] in *.
  apply abs_operand_inv in Ha as [(e & l & -> & Hl & ->)|[(k & s & Hc & Hv & Hk & ->)|(x0 & Hx & ->)]].
  - destruct (same_atoms U ks ks' F l Hl) as (m & Hm & L). destruct t' as [ty' tp' v']. cbn [plain abs_operand]. rewrite Hm.
    exists (OSet m). split; [reflexivity|now constructor].
  - destruct ks as [|]; [|discriminate]. inversion F; subst ks'. pose proof (same_str _ _ _ E K Hv) as Hv'.
    destruct t' as [ty' tp' v']. cbn [t_val] in Hv'. subst v'. exists (OAtt k s).
    destruct c; try discriminate Hc; injection Hc as <-; cbn; split; constructor.
  - destruct (same_atom U _ _ x0 H0 Hx) as (y & Hy & L). cbn [erase] in Hy. exists (OAtom y). split; [|now constructor].
    now apply abs_atom_operand.
Qed.
Lemma same_abs U a : forall b p, same_tree U a b -> abs (erase a) = Some p ->
  exists q, abs (erase b) = Some q /\ pol_like p q.
Proof.
  induction a as [c t i r ks IH] using ast_ind'. intros [c' t' i' r' ks'] p H Ha. rewrite Forall_forall in IH.
  apply same_tree_unfold in H as (-> & _ & _ & _ & E & K & _ & F). cbn [erase] in *.
  apply abs_inv in Ha as [(-> & Hk & x & Hv & ->)|[(k & s & Hc & Hv & Hk & ->)|[(-> & k & q & Hk & Hq & ->)|
      [(-> & l & m & o & x & y & Hk & Hv & Hl & Hr & ->)|(-> & l & m & x & y & Hk & Hl & Hr & Hv)]]]].
  - destruct ks as [|]; [|discriminate]. inversion F; subst ks'. cbn [plain map abs]. rewrite (same_str _ _ _ E K Hv).
    exists (PConst x). split; [now destruct x|constructor].
  - destruct ks as [|]; [|discriminate]. inversion F; subst ks'. apply (same_str _ _ _ E K) in Hv. exists (PAtt k s).
    destruct c; try discriminate Hc; injection Hc as <-; cbn; rewrite Hv; split; constructor.
  - destruct ks as [|k0 [|]]; try discriminate. cbn in Hk. injection Hk as <-.
    inversion F as [|? k1 ? ? H1 H2]; subst. inversion H2; subst.
    destruct (IH k0 (or_introl eq_refl) k1 q H1 Hq) as (q' & Hq' & L). cbn [plain map abs]. rewrite Hq'.
    exists (PNot q'). split; [reflexivity|now constructor].
  - destruct ks as [|l0 [|m0 [|]]]; try discriminate. cbn in Hk. injection Hk as <- <-.
    inversion F as [|? l1 ? ? H1 H2]; subst. inversion H2 as [|? m1 ? ? H3 H4]; subst. inversion H4; subst.
    destruct (same_operand_abs U l0 l1 x H1 Hl) as (x' & Hx' & Lx). destruct (same_operand_abs U m0 m1 y H3 Hr) as (y' & Hy' & Ly).
    cbn [plain map abs]. rewrite (same_str _ _ _ E K Hv), Hx', Hy'. exists (PCmp o x' y'). split; [now destruct o|now constructor].
  - destruct ks as [|l0 [|m0 [|]]]; try discriminate. cbn in Hk. injection Hk as <- <-.
    inversion F as [|? l1 ? ? H1 H2]; subst. inversion H2 as [|? m1 ? ? H3 H4]; subst. inversion H4; subst.
    destruct (IH l0 (or_introl eq_refl) l1 x H1 Hl) as (x' & Hx' & Lx).
    destruct (IH m0 (or_intror (or_introl eq_refl)) m1 y H3 Hr) as (y' & Hy' & Ly).
    cbn [plain map abs]. destruct Hv as [[Hv ->]|[Hv ->]]; rewrite (same_str _ _ _ E K Hv), Hx', Hy'.
    + exists (PAnd x' y'). split; [reflexivity|now constructor].
    + exists (POr x' y'). split; [reflexivity|now constructor].
Qed.

(** A first evaluation of any tree with untouched results that stands for a policy. *)
Lemma tree_eval U h a p tb level : heap_ok h -> fresh U a -> abs (erase a) = Some p ->
  eval_spec U h tb level (erase a) p (evaluate U h (interp_new a) tb level).
Proof.
  intros Hh Hf Ha. pose proof (eval_root U h (table_of tb) a p Hh Hf Ha) as R.
  unfold eval_spec, evaluate, env_of. cbn [i_ast interp_new i_warnings]. fold (table_of tb).
  destruct (eval_node U h (table_of tb) a) as [[a' ws] [x|]]; unfold root_outcome in R.
  - destruct R as [-> Hi]. cbn. eauto.
  - destruct R as (-> & Hw & R). cbn [app].
    assert (Rr : forall r, Ok (n_result a') = Ok r ->
      if faults (table_env U h (table_of tb)) p
      then exists c n l, p = PAtt c n /\ r = Some (RSym l) /\ st_lookup U (table_of tb) (cat_prefix c ++ n) = Some l
      else r = Some (RV (VTri (den (table_env U h (table_of tb)) p)))).
    { intros r [= <-]. destruct (faults _ p); auto. }
    destruct ws as [|w ws].
    + cbn [fst snd i_warnings]. repeat split; eauto.
    + unfold warn_level. destruct level as [z|]; [destruct (z <=? 2)|]; cbn [fst snd i_warnings];
      repeat split; eauto; intros r [=].
Qed.

(** A policy that is encoded and decoded decides alike, if all its values survive. *)
Theorem C72_decisions (U : unicode) (text : str) (last n' : Z) (a : ast) (b64 : bool) (bs : bytes) (last2 : Z) :
  unicode_ok U -> parse_text U text last = Ok (a, n') -> encode a b64 = Ok bs ->
  Forall (fun n => survives (n_tok n)) (subtrees a) ->
  exists g a', snd (decode U bs b64 last2) = Ok (g, n') /\ denotes g n' a' /\
    forall h tb level, heap_ok h ->
      alike (evaluate U h (interp_new a) tb level) (evaluate U h (interp_new a') tb level).
Proof.
  intros uok P E S. destruct (C31_parsed U text last a n' b64 bs last2 uok P E S) as (g & a' & D & Dn & T & _).
  exists g, a'. rewrite D. split; [reflexivity|]. split; [exact Dn|]. intros h tb level Hh.
  destruct (parsed U text last a n' uok P) as [Hf [p Ha]]. destruct (same_abs U a a' p T Ha) as (q & Hq & L).
  eapply spec_alike; [exact (tree_eval U h a p tb level Hh Hf Ha)|exact (tree_eval U h a' q tb level Hh (same_fresh U a a' T) Hq)| |].
  - now apply pol_like_meaning.
  - intros c n ->. inversion L; subst; auto.
Qed.

Lemma like_const_type x y : operand_like x y -> const_type x = const_type y /\ kind_of x = kind_of y.
Proof. destruct 1 as [a b H|l m H|]; auto. destruct H; auto. Qed.
Definition comp_like (k j : cmp * operand * operand) : Prop :=
  let '(o, l, r) := k in let '(o', l', r') := j in o = o' /\ operand_like l l' /\ operand_like r r'.
Lemma like_comparisons p q : pol_like p q -> Forall2 comp_like (pol_comparisons p) (pol_comparisons q) /\ attributes p = attributes q.
Proof.
  assert (A : forall x y, operand_like x y -> operand_atts x = operand_atts y) by now destruct 1.
  induction 1 as [t|c n|o l r l' r' Hl Hr|p p' H [IH1 IH2]|p q p' q' H [IH1 IH2] H' [IH3 IH4]|p q p' q' H [IH1 IH2] H' [IH3 IH4]];
  cbn; auto.
  - split; [constructor; auto; cbn; auto|]. now rewrite (A l l'), (A r r').
  - split; [now apply Forall2_app|]. now rewrite IH2, IH4.
  - split; [now apply Forall2_app|]. now rewrite IH2, IH4.
Qed.
Lemma like_evidence U a k j : comp_like k j -> evidence U a k = evidence U a j.
Proof.
  destruct k as [[o l] r], j as [[o' l'] r']. intros (<- & Hl & Hr).
  assert (T : forall x y x' y', operand_like x x' -> operand_like y y' -> told U o a x y = told U o a x' y').
  { intros x y x' y' Hx Hy. unfold told. destruct (like_const_type y y' Hy) as [-> _]. destruct Hx; auto. }
  cbn. now rewrite (T l r l' r' Hl Hr), (T r l r' l' Hr Hl).
Qed.
Lemma like_inferred U ks js : Forall2 comp_like ks js -> forall a, inferred U ks a = inferred U js a.
Proof. induction 1 as [|k j ks js H _ IH]; intros a; cbn; auto. now rewrite (like_evidence U a k j H), IH. Qed.
Lemma like_kinds U ks js : Forall2 comp_like ks js -> forall b b', Forall2 comp_like b b' -> kinds_after U b ks = kinds_after U b' js.
Proof.
  induction 1 as [|[[o l] r] [[o' l'] r'] ks js H _ IH]; intros b b' Hb; cbn [kinds_after]; auto.
  pose proof H as H0. destruct H as (<- & Hl & Hr).
  destruct (like_const_type l l' Hl) as [Cl Kl]. destruct (like_const_type r r' Hr) as [Cr Kr].
  assert (I : ill_typed o l r = ill_typed o l' r') by (unfold ill_typed; now rewrite Kl, Kr).
  assert (D : doubtful (inferred U b) o l r = doubtful (inferred U b') o l' r').
  { unfold doubtful. pose proof (like_inferred U b b' Hb) as Ei. destruct (op_class_of o); auto;
    destruct Hl as [x y Hx|m m' Hm|c n], Hr as [x' y' Hx'|m1 m1' Hm1|c' n']; cbn [const_type] in *; rewrite ?Ei, ?Cl, ?Cr; auto. }
  rewrite I, D. f_equal. apply IH. apply Forall2_app; auto.
Qed.
Lemma times_like {A} (R : A -> A -> Prop) l m : Forall2 R l m -> forall k, Forall2 R (times k l) (times k m).
Proof. intros H. induction k as [|k IH]; cbn; auto. now apply Forall2_app. Qed.

(** and is judged alike by the type checker. *)
Theorem C72_types (U : unicode) (text : str) (last n' : Z) (a : ast) (p : pol) (b64 : bool) (bs : bytes) (last2 : Z) :
  unicode_ok U -> parse_text U text last = Ok (a, n') -> encode a b64 = Ok bs ->
  Forall (fun n => survives (n_tok n)) (subtrees a) -> abs (erase a) = Some p -> steady U (attributes p) ->
  exists g a', snd (decode U bs b64 last2) = Ok (g, n') /\ denotes g n' a' /\
    forall level levels,
      let c1 := fst (checks U (checker_new a) (level :: levels)) in
      let c2 := fst (checks U (checker_new a') (level :: levels)) in
      map issue_kind (get_issues c1) = map issue_kind (get_issues c2) /\ get_result c1 = get_result c2 /\
      forall c n, In (c, n) (attributes p) ->
        st_lookup_type U (ts_heap (tc_state c1)) (ts_table (tc_state c1)) (cat_word c ++ n) =
        st_lookup_type U (ts_heap (tc_state c2)) (ts_table (tc_state c2)) (cat_word c ++ n).
Proof.
  intros uok P E S Ha Hn. destruct (C31_parsed U text last a n' b64 bs last2 uok P E S) as (g & a' & D & Dn & T & _).
  exists g, a'. rewrite D. split; [reflexivity|]. split; [exact Dn|]. intros level levels. cbv zeta.
  pose proof (parsed_typed _ _ _ _ _ uok P) as Ht. destruct (same_abs U a a' p T Ha) as (q & Hq & L).
  destruct (like_comparisons p q L) as [C At].
  assert (Hn' : steady U (attributes q)) by (rewrite <- At; exact Hn).
  pose proof (tree_result U a p level levels Ht Ha Hn) as (I1 & R1 & T1).
  pose proof (tree_result U a' q level levels (same_typed U a a' T Ht) Hq Hn') as (I2 & R2 & T2).
  rewrite (like_kinds _ _ _ (times_like _ _ _ C (Datatypes.S (List.length levels))) [] [] (Forall2_nil _)) in I1, R1.
  rewrite I1, I2, R1, R2. repeat split; auto. intros c n Hi. rewrite T1, T2 by (try rewrite <- At; auto).
  now rewrite (like_inferred _ _ _ C).
Qed.

(** ** C73 *)

(** Type errors are real: a comparison reported as an ERROR has no truth value, whatever
    the attributes are - except a literal set on the left of IN. *)
Definition set_in (o : cmp) (l : operand) : bool := match o, l with OpIn, OSet _ => true | _, _ => false end.
Definition void (o : cmp) (l r : operand) : bool := ill_typed o l r && negb (set_in o l).
Lemma void_undef E o l r : void o l r = true -> cmp_den o (operand_kind E l) (operand_kind E r) = UNDEF.
Proof.
  unfold void. intros H. apply andb_true_iff in H as [H N]. unfold cmp_den. destruct (undefined _ || undefined _); auto.
  assert (C : cmp_bool o (operand_kind E l) (operand_kind E r) = None); [|now rewrite C].
  assert (A : forall c n, match att_kind (E c n) with EvalSpec.KAtom _ | EvalSpec.KLit _ => False | _ => True end)
    by (intros; apply att_kind_att).
  destruct l as [[]|l|c n], r as [[]|r|d m]; cbn in H; destruct o; cbn in H, N; try discriminate; cbn [operand_kind cmp_bool];
  try reflexivity;
  try (specialize (A d m); destruct (att_kind (E d m)) as [| | | |[]|]; try contradiction; reflexivity);
  try (specialize (A c n); destruct (att_kind (E c n)) as [| | | |[]|]; try contradiction; reflexivity).
Qed.

(** The policy with those comparisons replaced by UNDEF. *)
Fixpoint blank (p : pol) : pol :=
  match p with
  | PCmp o l r => if void o l r then PConst UNDEF else p
  | PNot q => PNot (blank q)
  | PAnd q r => PAnd (blank q) (blank r)
  | POr q r => POr (blank q) (blank r)
  | _ => p
  end.
Lemma blank_den E p : den E (blank p) = den E p.
Proof.
  induction p as [| |o l r|q IH|q IHq r IHr|q IHq r IHr]; cbn; auto; try (now rewrite ?IH, ?IHq, ?IHr).
  destruct (void o l r) eqn:V; auto. cbn. symmetry. now apply void_undef.
Qed.

Theorem C73_errors (U : unicode) (h : heap) (text : str) (last n' : Z) (a : ast) (p : pol)
    (tb : option table) (level : option Z) (it' : interp) (r : option rval) :
  unicode_ok U -> heap_ok h -> parse_text U text last = Ok (a, n') -> abs (erase a) = Some p ->
  (forall c n, p <> PAtt c n) ->
  evaluate U h (interp_new a) tb level = (it', Ok r) ->
  r = Some (RV (VTri (den (env_of U h tb) (blank p)))).
Proof.
  intros uok Hh Hp Ha Hn He. rewrite blank_den.
  destruct (C19_evaluation U h text last a n' tb level it' r uok Hh Hp He) as (q & Hq & [->|(c & n & l & -> & _)]).
  - rewrite Ha in Hq. injection Hq as <-. reflexivity.
  - rewrite Ha in Hq. injection Hq as ->. now destruct (Hn c n).
Qed.

(** A policy that is one such comparison. *)
Theorem C73_error_undef (U : unicode) (h : heap) (text : str) (last n' : Z) (a : ast) (o : cmp) (x y : operand)
    (lvl : Z) (tb : option table) (level : option Z) :
  unicode_ok U -> heap_ok h -> parse_text U text last = Ok (a, n') -> abs (erase a) = Some (PCmp o x y) ->
  steady U (attributes (PCmp o x y)) -> get_result (fst (check U (checker_new a) lvl)) = ResError ->
  (o = OpIn -> forall l, x <> OSet l) ->
  match snd (evaluate U h (interp_new a) tb level) with
  | Ok r => r = Some (RV (VTri UNDEF))
  | Err _ => True
  end.
Proof.
  intros uok Hh Hp Ha Hn Hr Hs.
  destruct (C16_result U text last n' a (PCmp o x y) lvl uok Hp Ha Hn) as (_ & He & _). cbv zeta in He.
  apply He in Hr as (o' & l & r & [Hi|[]] & Il). injection Hi as -> -> ->.
  destruct (evaluate U h (interp_new a) tb level) as [it' [r'|e]] eqn:Ee; cbn [snd]; auto.
  rewrite (C73_errors U h text last n' a (PCmp o' l r) tb level it' r' uok Hh Hp Ha ltac:(discriminate) Ee).
  rewrite blank_den. cbn [den]. rewrite void_undef; auto. unfold void. rewrite Il. cbn [andb].
  destruct o'; auto. destruct l as [|l|]; auto. now destruct (Hs eq_refl l).
Qed.

(** ** C74 *)

(** Which comparisons are decided once the attributes have the inferred types [T]. *)
Definition simple (x : atom) : Prop :=
  match x with AInt z => z <> 0 | AFloat f => zero_atom (AFloat f) = false | AStr s => s <> [] | ANull => False end.
Definition sorted (x : atom) (t : symtype) : Prop :=
  match x with AStr _ => t = ST_STRING | ANull => False | _ => numeric t = true end.
Inductive plain_cmp (T : cat * str -> symtype) : cmp -> operand -> operand -> Prop :=
| pc_left o c n x : op_class_of o = Ineq \/ op_class_of o = Equality -> simple x -> plain_cmp T o (OAtt c n) (OAtom x)
| pc_right o c n x : op_class_of o = Ineq \/ op_class_of o = Equality -> simple x -> plain_cmp T o (OAtom x) (OAtt c n)
| pc_consts o x y : op_class_of o = Ineq \/ op_class_of o = Equality -> simple x -> simple y -> plain_cmp T o (OAtom x) (OAtom y)
| pc_equal o c n d m : op_class_of o = Equality -> plain_cmp T o (OAtt c n) (OAtt d m)
| pc_order o c n d m : op_class_of o = Ineq -> numeric (T (c, n)) = true -> numeric (T (d, m)) = true ->
    plain_cmp T o (OAtt c n) (OAtt d m)
| pc_in c n l : Forall simple l -> plain_cmp T OpIn (OAtt c n) (OSet l)
| pc_member x l : simple x -> Forall simple l -> plain_cmp T OpIn (OAtom x) (OSet l)
| pc_subset c n l : Forall simple l -> plain_cmp T OpSubset (OAtt c n) (OSet l)
| pc_superset c n l : Forall simple l -> plain_cmp T OpSubset (OSet l) (OAtt c n)
| pc_subsets l m : Forall simple l -> Forall simple m -> plain_cmp T OpSubset (OSet l) (OSet m).
Fixpoint plain_pol (T : cat * str -> symtype) (p : pol) : Prop :=
  match p with
  | PConst t => t = TRUE
  | PAtt _ _ => True
  | PCmp o l r => plain_cmp T o l r
  | PNot q => plain_pol T q
  | PAnd q r | POr q r => plain_pol T q /\ plain_pol T r
  end.

(** Values of a type: a number, a string, a collection of hashable values. *)
Inductive has_type : option (symtype * pyval) -> symtype -> Prop :=
| ht_num d v t : numeric d = true -> as_num v <> None -> t = ST_UNKNOWN \/ numeric t = true -> has_type (Some (d, v)) t
| ht_str s t : t = ST_UNKNOWN \/ t = ST_STRING -> has_type (Some (ST_STRING, VStr s)) t
| ht_list l t : Forall (fun v => hashable v = true) l -> t = ST_UNKNOWN \/ t = ST_SET -> has_type (Some (ST_SET, VList l)) t
| ht_set l t : Forall (fun v => hashable v = true) l -> t = ST_UNKNOWN \/ t = ST_SET -> has_type (Some (ST_SET, VSet l)) t.
Definition is_bool (v : option (symtype * pyval)) : Prop := v = Some (ST_BOOL, VTri TRUE) \/ v = Some (ST_BOOL, VTri FALSE).

Fixpoint bare (p : pol) : list (cat * str) :=
  match p with
  | PAtt c n => [(c, n)]
  | PNot q => bare q
  | PAnd q r | POr q r => bare q ++ bare r
  | _ => []
  end.
(** Attributes have a value of the inferred type; those that stand alone are booleans. *)
Definition conforms (U : unicode) (E : env) (p : pol) : Prop :=
  (forall o l r c n, In (o, l, r) (pol_comparisons p) -> In (c, n) (operand_atts l ++ operand_atts r) ->
     has_type (E c n) (inferred U (pol_comparisons p) (c, n))) /\
  (forall c n, In (c, n) (bare p) -> is_bool (E c n)).

Lemma passed_all U ks : forall b, kinds_after U b ks = [] -> forall before o l r after, ks = before ++ (o, l, r) :: after ->
  ill_typed o l r = false /\ doubtful (inferred U (b ++ before)) o l r = false.
Proof.
  induction ks as [|[[o1 l1] r1] ks IH]; intros b H before o l r after E; [now destruct before|].
  cbn [kinds_after] in H. apply app_eq_nil in H as [H1 H2]. destruct before as [|k before].
  - injection E as -> -> -> _. rewrite app_nil_r. destruct (ill_typed o l r); [discriminate|]. now destruct (doubtful _ o l r).
  - injection E as <- E. specialize (IH _ H2 before o l r after E). now rewrite <- app_assoc in IH.
Qed.

Lemma clash_no_string t : clash t ST_STRING = false -> t = ST_STRING.
Proof. destruct t; cbn; auto; discriminate. Qed.
Lemma clash_no_num t u : numeric u = true -> clash t u = false -> numeric t = true.
Proof. destruct t, u; cbn; auto; discriminate. Qed.

(** In a policy without issues an attribute compared with a constant has the sort of the constant. *)
Lemma passed_sort U ks c n x o l r before after : kinds_after U [] ks = [] -> ks = before ++ (o, l, r) :: after ->
  l = OAtt c n /\ r = OAtom x \/ l = OAtom x /\ r = OAtt c n ->
  op_class_of o = Ineq \/ op_class_of o = Equality -> simple x -> sorted x (inferred U ks (c, n)).
Proof.
  intros H E Hlr Ho Hs. destruct (passed_all U ks [] H before o l r after E) as [Hi Hd]. cbn [app] in Hd.
  assert (Ht : exists t, const_type (OAtom x) = Some t /\ tells o t = true /\ t <> ST_UNKNOWN /\ sorted x t /\
               (forall u, clash u t = false -> sorted x u)).
  { destruct x as [z|f|s|]; cbn [const_type].
    - exists ST_INT. repeat split; try discriminate; [destruct Ho as [Ho|Ho]; unfold tells; now rewrite Ho|].
      intros u. now apply clash_no_num.
    - exists ST_FLOAT. repeat split; try discriminate; [destruct Ho as [Ho|Ho]; unfold tells; now rewrite Ho|].
      intros u. now apply clash_no_num.
    - exists ST_STRING. repeat split; try discriminate; [|intros u; apply clash_no_string].
      destruct Ho as [Ho|Ho]; unfold tells; rewrite Ho; auto. exfalso. unfold ill_typed in Hi. rewrite Ho in Hi.
      destruct Hlr as [[-> ->]|[-> ->]]; discriminate.
    - destruct Hs. }
  destruct Ht as (t & Ct & Tt & Nt & St & Cl).
  assert (Same : same_att U (c, n) (c, n) = true) by (unfold same_att; now apply str_eqb_eq).
  assert (Ev : evidence U (c, n) (o, l, r) = Some t).
  { destruct Hlr as [[-> ->]|[-> ->]]; cbn [evidence].
    - unfold told at 1. now rewrite Ct, Same, Tt.
    - unfold told at 1. destruct x; unfold told; now rewrite Ct, Same, Tt. }
  rewrite E, inferred_app. cbn [inferred]. rewrite Ev.
  destruct (type_eqb (inferred U before (c, n)) ST_UNKNOWN) eqn:Eu; auto.
  apply Cl. unfold doubtful in Hd.
  destruct Hlr as [[-> ->]|[-> ->]]; destruct Ho as [Ho|Ho]; rewrite Ho, Ct, Eu in Hd; cbn [negb andb] in Hd; exact Hd.
Qed.

Lemma simple_nonzero x : simple x -> zero_atom x = false /\ is_null x = false.
Proof. destruct x as [z|f|s|]; cbn; [destruct z|..]; try tauto. destruct s; tauto. Qed.
Lemma simples_nonzero l : Forall simple l -> existsb zero_atom l = false /\ existsb is_null l = false.
Proof.
  induction 1 as [|x l H _ [IH1 IH2]]; cbn; auto. destruct (simple_nonzero x H) as [-> ->]. auto.
Qed.

(** A value of a type as an operand. *)
Lemma has_type_kind v t : has_type v t ->
  (exists x, att_kind v = EvalSpec.KScal x /\ as_num x <> None /\ (t = ST_UNKNOWN \/ numeric t = true)) \/
  (exists s, att_kind v = EvalSpec.KScal (VStr s) /\ (t = ST_UNKNOWN \/ t = ST_STRING)) \/
  (exists l, att_kind v = EvalSpec.KColl l /\ existsb (fun x => negb (hashable x)) l = false /\ (t = ST_UNKNOWN \/ t = ST_SET)).
Proof.
  assert (Hl : forall l, Forall (fun v => hashable v = true) l -> existsb (fun x => negb (hashable x)) l = false).
  { induction 1 as [|x l Hx _ IH]; cbn; auto. now rewrite Hx. }
  destruct 1 as [d w t Hd Hw Ht|s t Ht|l t Hh Ht|l t Hh Ht].
  - left. exists w. destruct d; try discriminate; destruct w; try (now destruct Hw); repeat split; auto.
  - right; left. exists s. split; auto.
  - right; right. exists l. repeat split; auto.
  - right; right. exists l. repeat split; auto.
Qed.
Lemma att_warns_none E c n : att_kind (E c n) <> EvalSpec.KUndef -> att_warns E c n = [].
Proof.
  unfold att_warns. destruct (E c n) as [[t v]|]; [|intros H; now destruct H]. intros H.
  destruct (undefined (att_kind (Some (t, v)))) eqn:Ed.
  { destruct (att_kind (Some (t, v))); try discriminate. now destruct H. }
  destruct t, v as [| | | | |[]| | |]; auto; try discriminate.
Qed.

Lemma plain_cmp_decided U E p o l r : kinds_after U [] (pol_comparisons p) = [] -> conforms U E p ->
  In (o, l, r) (pol_comparisons p) -> plain_cmp (inferred U (pol_comparisons p)) o l r ->
  cmp_den o (operand_kind E l) (operand_kind E r) <> UNDEF /\ cmp_faults E o l r = false /\ warns E (PCmp o l r) = [].
Proof.
  intros Hk [Hc _] Hin Hp. apply in_split in Hin as (before & after & Es).
  assert (At : forall c n, In (c, n) (operand_atts l ++ operand_atts r) -> has_type (E c n) (inferred U (pol_comparisons p) (c, n))).
  { intros c n Hi. apply (Hc o l r); auto. rewrite Es. apply in_or_app. right. now left. }
  assert (Goal : forall b, undefined (operand_kind E l) = false -> undefined (operand_kind E r) = false ->
    cmp_bool o (operand_kind E l) (operand_kind E r) = Some b ->
    zero_operand l = false -> zero_operand r = false -> hash_fault o (operand_kind E l) (operand_kind E r) = false ->
    operand_warns E l = [] -> operand_warns E r = [] ->
    cmp_den o (operand_kind E l) (operand_kind E r) <> UNDEF /\ cmp_faults E o l r = false /\ warns E (PCmp o l r) = []).
  { intros b D1 D2 B Z1 Z2 F W1 W2. unfold cmp_den, cmp_faults. cbn [warns]. rewrite D1, D2, B, Z1, Z2, F, W1, W2. cbn.
    repeat split. now destruct b. }
  clear Hc. destruct Hp as [o c n x Ho Hs|o c n x Ho Hs|o x y Ho Hx Hy|o c n d m Ho|o c n d m Ho Hcn Hdm|c n s Hs|x s Hx Hs|c n s Hs|c n s Hs|s1 s2 Hs1 Hs2].
  - pose proof (passed_sort _ _ c n x o _ _ before after Hk Es (or_introl (conj eq_refl eq_refl)) Ho Hs) as So.
    specialize (At c n (or_introl eq_refl)). destruct (simple_nonzero x Hs) as [Zx Nx].
    destruct (passed_all _ _ [] Hk before o _ _ after Es) as [Hi _]. apply has_type_kind in At.
    pose proof (att_warns_none E c n) as Wn. cbn [operand_kind operand_warns zero_operand] in Goal |- *.
    destruct At as [(v & K & Nv & Ht)|[(q & K & Ht)|(q & K & _ & Ht)]]; rewrite K in Wn, Goal |- *;
    specialize (Wn ltac:(discriminate));
    destruct x as [z|f|w|]; try (now destruct Hs); cbn [sorted] in So;
    try (destruct Ht as [Ht|Ht]; [rewrite Ht in So; discriminate So|first [rewrite Ht in So; discriminate So|rewrite So in Ht; discriminate Ht]]);
    try (destruct v; try (now destruct Nv));
    destruct o; try (destruct Ho; discriminate); try discriminate Hi;
    eapply Goal; solve [reflexivity|assumption].
  - pose proof (passed_sort _ _ c n x o _ _ before after Hk Es (or_intror (conj eq_refl eq_refl)) Ho Hs) as So.
    specialize (At c n (or_introl eq_refl)). destruct (simple_nonzero x Hs) as [Zx Nx].
    destruct (passed_all _ _ [] Hk before o _ _ after Es) as [Hi _]. apply has_type_kind in At.
    pose proof (att_warns_none E c n) as Wn. cbn [operand_kind operand_warns zero_operand] in Goal |- *.
    destruct At as [(v & K & Nv & Ht)|[(q & K & Ht)|(q & K & _ & Ht)]]; rewrite K in Wn, Goal |- *;
    specialize (Wn ltac:(discriminate));
    destruct x as [z|f|w|]; try (now destruct Hs); cbn [sorted] in So;
    try (destruct Ht as [Ht|Ht]; [rewrite Ht in So; discriminate So|first [rewrite Ht in So; discriminate So|rewrite So in Ht; discriminate Ht]]);
    try (destruct v; try (now destruct Nv));
    destruct o; try (destruct Ho; discriminate); try discriminate Hi;
    eapply Goal; solve [reflexivity|assumption].
  - destruct (passed_all _ _ [] Hk before o _ _ after Es) as [Hi _].
    destruct (simple_nonzero x Hx) as [Zx Nx]. destruct (simple_nonzero y Hy) as [Zy Ny].
    destruct x as [z|f|w|], y as [z'|f'|w'|]; try (now destruct Hx); try (now destruct Hy);
    destruct o; try (destruct Ho; discriminate); try discriminate Hi;
    eapply Goal; solve [reflexivity|assumption].
  - pose proof (At c n (or_introl eq_refl)) as A1. pose proof (At d m (or_intror (or_introl eq_refl))) as A2.
    apply has_type_kind in A1. apply has_type_kind in A2.
    pose proof (att_warns_none E c n) as Wn. pose proof (att_warns_none E d m) as Wm.
    cbn [operand_kind operand_warns zero_operand] in Goal |- *.
    destruct A1 as [(v & K1 & _)|[(q & K1 & _)|(q & K1 & H1 & _)]];
    destruct A2 as [(v2 & K2 & _)|[(q2 & K2 & _)|(q2 & K2 & H2 & _)]];
    rewrite K1 in Wn, Goal |- *; rewrite K2 in Wm, Goal |- *;
    specialize (Wn ltac:(discriminate)); specialize (Wm ltac:(discriminate));
    destruct o; try discriminate;
    (eapply Goal; try reflexivity; try assumption; cbn [hash_fault unhashable_members orb]; rewrite ?H1, ?H2; reflexivity).
  - pose proof (At c n (or_introl eq_refl)) as A1. pose proof (At d m (or_intror (or_introl eq_refl))) as A2.
    apply has_type_kind in A1. apply has_type_kind in A2.
    pose proof (att_warns_none E c n) as Wn. pose proof (att_warns_none E d m) as Wm.
    cbn [operand_kind operand_warns zero_operand] in Goal |- *.
    destruct A1 as [(v & K1 & N1 & _)|[(q & K1 & T1)|(q & K1 & H1 & T1)]];
    try (destruct T1 as [T1|T1]; rewrite T1 in Hcn; discriminate Hcn);
    destruct A2 as [(v2 & K2 & N2 & _)|[(q2 & K2 & T2)|(q2 & K2 & H2 & T2)]];
    try (destruct T2 as [T2|T2]; rewrite T2 in Hdm; discriminate Hdm).
    rewrite K1 in Wn, Goal |- *; rewrite K2 in Wm, Goal |- *;
    specialize (Wn ltac:(discriminate)); specialize (Wm ltac:(discriminate)).
    destruct v; try (now destruct N1); destruct v2; try (now destruct N2); destruct o; try discriminate;
    eapply Goal; solve [reflexivity|assumption].
  - pose proof (At c n (or_introl eq_refl)) as A1. apply has_type_kind in A1. destruct (simples_nonzero s Hs) as [Zs Ns].
    pose proof (att_warns_none E c n) as Wn. cbn [operand_kind operand_warns zero_operand] in Goal |- *.
    destruct A1 as [(v & K1 & N1 & _)|[(q & K1 & T1)|(q & K1 & H1 & T1)]]; rewrite K1 in Wn, Goal |- *;
    specialize (Wn ltac:(discriminate)); (eapply Goal; try reflexivity; try assumption).
    cbn [hash_fault unhashable_members orb]. rewrite H1. cbn [orb]. clear - Hs.
    induction Hs as [|x s Hx _ IH]; auto. destruct x; cbn in *; try (now destruct Hx); now destruct (member _ q).
  - destruct (simple_nonzero x Hx) as [Zx Nx]. destruct (simples_nonzero s Hs) as [Zs Ns].
    eapply Goal; try reflexivity; try assumption. now destruct x.
  - pose proof (At c n (or_introl eq_refl)) as A1. apply has_type_kind in A1. destruct (simples_nonzero s Hs) as [Zs Ns].
    pose proof (att_warns_none E c n) as Wn. cbn [operand_kind operand_warns zero_operand] in Goal |- *.
    destruct A1 as [(v & K1 & N1 & _)|[(q & K1 & T1)|(q & K1 & H1 & T1)]]; rewrite K1 in Wn, Goal |- *;
    specialize (Wn ltac:(discriminate)); (eapply Goal; try reflexivity; try assumption);
    cbn [hash_fault unhashable_members has_null orb]; rewrite ?H1, Ns; reflexivity.
  - pose proof (At c n (or_introl eq_refl)) as A1. apply has_type_kind in A1. destruct (simples_nonzero s Hs) as [Zs Ns].
    pose proof (att_warns_none E c n) as Wn. cbn [operand_kind operand_warns zero_operand] in Goal |- *.
    destruct A1 as [(v & K1 & N1 & _)|[(q & K1 & T1)|(q & K1 & H1 & T1)]]; rewrite K1 in Wn, Goal |- *;
    specialize (Wn ltac:(discriminate)); (eapply Goal; try reflexivity; try assumption);
    cbn [hash_fault unhashable_members has_null orb]; rewrite ?H1, Ns; reflexivity.
  - destruct (simples_nonzero s1 Hs1) as [Z1 N1]. destruct (simples_nonzero s2 Hs2) as [Z2 N2].
    eapply Goal; try reflexivity; try assumption. cbn [hash_fault unhashable_members has_null operand_kind orb]. now rewrite N1, N2.
Qed.

Lemma plain_pol_decided U E p q : kinds_after U [] (pol_comparisons p) = [] -> conforms U E p ->
  (forall k, In k (pol_comparisons q) -> In k (pol_comparisons p)) -> (forall k, In k (bare q) -> In k (bare p)) ->
  plain_pol (inferred U (pol_comparisons p)) q ->
  den E q <> UNDEF /\ faults E q = false /\ warns E q = [].
Proof.
  intros Hk Hc. induction q as [t|c n|o l r|q IH|q IHq r IHr|q IHq r IHr]; cbn [pol_comparisons bare plain_pol]; intros Hi Hb Hp.
  - subst t. repeat split. discriminate.
  - destruct Hc as [_ Hc]. specialize (Hc c n (Hb _ (or_introl eq_refl))). cbn. unfold att_warns.
    destruct Hc as [-> | ->]; repeat split; discriminate.
  - apply (plain_cmp_decided U E p); auto. apply Hi. now left.
  - destruct (IH Hi Hb Hp) as (D & F & W). cbn. rewrite F, W. repeat split. now destruct (den E q).
  - destruct Hp as [Hp1 Hp2].
    destruct IHq as (D & F & W); auto; [intros k ?; apply Hi; apply in_or_app; auto|intros k ?; apply Hb; apply in_or_app; auto|].
    destruct IHr as (D' & F' & W'); auto; [intros k ?; apply Hi; apply in_or_app; auto|intros k ?; apply Hb; apply in_or_app; auto|].
    cbn. rewrite F, W, F', W'. repeat split. now destruct (den E q), (den E r).
  - destruct Hp as [Hp1 Hp2].
    destruct IHq as (D & F & W); auto; [intros k ?; apply Hi; apply in_or_app; auto|intros k ?; apply Hb; apply in_or_app; auto|].
    destruct IHr as (D' & F' & W'); auto; [intros k ?; apply Hi; apply in_or_app; auto|intros k ?; apply Hb; apply in_or_app; auto|].
    cbn. rewrite F, W, F', W'. repeat split. now destruct (den E q), (den E r).
Qed.

(** A policy of such comparisons that passes the type checker is decided - TRUE or FALSE,
    no warning, no exception, at any level - by attributes of the inferred types. *)
Theorem C74_decided (U : unicode) (h : heap) (text : str) (last n' : Z) (a : ast) (p : pol) (lvl : Z)
    (tb : option table) (level : option Z) :
  unicode_ok U -> heap_ok h -> parse_text U text last = Ok (a, n') -> abs (erase a) = Some p -> steady U (attributes p) ->
  get_result (fst (check U (checker_new a) lvl)) = ResPass ->
  plain_pol (inferred U (pol_comparisons p)) p -> (forall t, p <> PConst t) -> conforms U (env_of U h tb) p ->
  exists t, t <> UNDEF /\ snd (evaluate U h (interp_new a) tb level) = Ok (Some (RV (VTri t))) /\
    i_warnings (fst (evaluate U h (interp_new a) tb level)) = [].
Proof.
  intros uok Hh Hp Ha Hn Hr Hpl Hnc Hc.
  assert (K : kinds_after U [] (pol_comparisons p) = []).
  { destruct (tree_result U a p lvl [] (parsed_typed _ _ _ _ _ uok Hp) Ha Hn) as (_ & R & _). cbn [checks List.length times app] in R.
    destruct (check U (checker_new a) lvl) as [c x]. cbn [fst] in *. rewrite Hr in R.
    destruct (kinds_after U [] (pol_comparisons p)) as [|k l]; auto. destruct (existsb _ _) in R; discriminate. }
  destruct (plain_pol_decided U (env_of U h tb) p p K Hc (fun _ H => H) (fun _ H => H) Hpl) as (D & F & W).
  destruct (first_eval U h text last a n' tb level uok Hh Hp) as (q & Hq & S). rewrite Ha in Hq. injection Hq as <-.
  unfold eval_spec in S.
  assert (RF : root_faults (env_of U h tb) p = false).
  { destruct p; auto. now destruct (Hnc t). }
  rewrite RF, F, W in S. destruct S as (S1 & S2 & S3). apply map_eq_nil in S1. rewrite S1 in S2.
  destruct S2 as [r S2]. exists (den (env_of U h tb) p). split; [exact D|]. split; [|exact S1].
  rewrite S2. f_equal. now apply S3.
Qed.

(** ** Cases and counterexamples *)

Definition ex_verdict (text : str) : option tc_result :=
  match parse_text ascii_only text 0 with
  | Ok (a, _) => Some (get_result (fst (check ascii_only (checker_new a) 4)))
  | Err _ => None
  end.

(** C71. *)
Definition ex_text1 : str := lit "user.age >= 18 AND user.admin OR object.level < 3.5".
Definition ex_text2 : str := lit "((USER.age>=18) and (user.admin))   or ( Object.level<3.50 )".
Example ex_same_policy : exists a1 n1 a2 n2 p,
  parse_text ascii_only ex_text1 0 = Ok (a1, n1) /\ parse_text ascii_only ex_text2 7 = Ok (a2, n2) /\
  abs (erase a1) = Some p /\ abs (erase a2) = Some p /\ ascii_names p /\
  ex_run ex_text1 (Some ex_table) None = ex_run ex_text2 (Some ex_table) None /\
  ex_verdict ex_text1 = Some ResPass /\ ex_verdict ex_text2 = Some ResPass.
Proof.
  eexists _, _, _, _, _. split; [vm_compute; reflexivity|]. split; [vm_compute; reflexivity|].
  split; [vm_compute; reflexivity|]. split; [vm_compute; reflexivity|]. split; [|vm_compute; auto].
  intros c n H. vm_compute in H. repeat (destruct H as [H|H]; [injection H as <- <-; reflexivity|]). destruct H.
Qed.

(** The case of an attribute name is kept by the parser: these are different policies (alike by C26). *)
Example ex_case_kept : exists a1 n1 a2 n2, parse_text ascii_only (lit "user.age") 0 = Ok (a1, n1) /\
  parse_text ascii_only (lit "user.Age") 0 = Ok (a2, n2) /\ abs (erase a1) <> abs (erase a2).
Proof. eexists _, _, _, _. split; [vm_compute; reflexivity|]. split; [vm_compute; reflexivity|]. vm_compute. discriminate. Qed.

(** C72: a policy whose values survive, *)
Example ex_survives : exists a n' bs, parse_text ascii_only (lit "user.age >= 18 AND object.level = 2.5 OR ""x"" IN {""x"", 1}") 0 = Ok (a, n') /\
  encode a true = Ok bs /\ Forall (fun n => survives (n_tok n)) (subtrees a).
Proof.
  eexists _, _, _. split; [vm_compute; reflexivity|]. split; [vm_compute; reflexivity|].
  cbn [subtrees flat_map n_kids app].
  repeat (constructor; [try exact I; try (split; [discriminate|repeat constructor]); try (exists 5242880%positive, (-21); repeat split; vm_compute; congruence)|]).
  constructor.
Qed.
(** and one that decides differently after transport: 0.1 is not a single precision number. *)
Definition ex_tenth : heap := [ex_sym (lit "x") USR_ATT ST_FLOAT (VFloat (float_of_dec false 1 1))].
Theorem C72_single_refuted : exists text a n' bs g a' h tb,
  parse_text ascii_only text 0 = Ok (a, n') /\ encode a true = Ok bs /\
  snd (decode ascii_only bs true 0) = Ok (g, n') /\ denotes g n' a' /\ heap_ok h /\
  snd (evaluate ascii_only h (interp_new a) tb None) = Ok (Some (RV (VTri TRUE))) /\
  snd (evaluate ascii_only h (interp_new a') tb None) = Ok (Some (RV (VTri FALSE))).
Proof.
  exists (lit "user.x = 0.1").
  do 4 eexists. eexists. exists ex_tenth, (Some [(lit "user.x", 0%nat)]).
  split; [vm_compute; reflexivity|]. split; [vm_compute; reflexivity|]. split; [vm_compute; reflexivity|].
  split.
  { econstructor; [vm_compute; reflexivity|]. vm_compute g_kids.
    repeat (constructor; [econstructor; [vm_compute; reflexivity|constructor]|]). constructor. }
  split; [repeat constructor|]. split; vm_compute; reflexivity.
Qed.

(** C73. *)
Example ex_error : ex_verdict (lit "user.age > ""x""") = Some ResError /\
  ex_run (lit "user.age > ""x""") (Some ex_table) (Some 3) = Ok (tv UNDEF, [WOperator]) /\
  void OpGt (OAtt CatUser (lit "age")) (OAtom (AStr (lit "x"))) = true.
Proof. vm_compute. auto. Qed.
(** IN with a literal set on the left is reported as an error, but has a truth value. *)
Theorem C73_in_refuted : exists text, ex_verdict text = Some ResError /\
  ex_run text None None = Ok (tv TRUE, []).
Proof. exists (lit "{1} IN {1, 2}"). vm_compute. auto. Qed.

(** C74. *)
Definition ex_typed_heap : heap :=
  [ex_sym (lit "age") USR_ATT ST_FLOAT (VFloat (S754_finite false 5 2)); ex_sym (lit "name") USR_ATT ST_STRING (VStr (lit "ann"));
   ex_sym (lit "admin") USR_ATT ST_BOOL (VTri FALSE); ex_sym (lit "owners") OBJ_ATT ST_SET (VList [VStr (lit "bob"); VStr (lit "ann")])].
Definition ex_typed_table : table :=
  [(lit "user.age", 0%nat); (lit "user.name", 1%nat); (lit "user.admin", 2%nat); (lit "object.owners", 3%nat); (lit "user.title", 1%nat); (lit "object.title", 3%nat)].
Example ex_decided : exists a n' p,
  parse_text ascii_only (lit "(18 <= user.age AND user.name != ""bob"" AND user.name IN {""ann"", ""eve""} OR user.admin) AND object.title != user.title AND NOT (object.owners SUBSET {""bob""})") 0 = Ok (a, n') /\
  abs (erase a) = Some p /\ ascii_names p /\ get_result (fst (check ascii_only (checker_new a) 4)) = ResPass /\
  plain_pol (inferred ascii_only (pol_comparisons p)) p /\ (forall t, p <> PConst t) /\
  heap_ok ex_typed_heap /\ conforms ascii_only (env_of ascii_only ex_typed_heap (Some ex_typed_table)) p /\
  snd (evaluate ascii_only ex_typed_heap (interp_new a) (Some ex_typed_table) None) = Ok (Some (RV (VTri TRUE))).
Proof.
  eexists _, _, _. split; [vm_compute; reflexivity|]. split; [vm_compute; reflexivity|].
  split; [intros c n H; vm_compute in H; repeat (destruct H as [H|H]; [injection H as <- <-; reflexivity|]); destruct H|].
  split; [vm_compute; reflexivity|].
  split. { cbn [plain_pol]. repeat split; constructor; cbn; auto; try discriminate; repeat constructor; discriminate. }
  split; [discriminate|]. split; [repeat constructor; discriminate|].
  split; [|vm_compute; reflexivity].
  split.
  - intros o l r c n Hi Hc.
    assert (N : (c, n) = (CatUser, lit "age") \/ (c, n) = (CatUser, lit "name") \/ (c, n) = (CatObject, lit "owners") \/
      (c, n) = (CatUser, lit "title") \/ (c, n) = (CatObject, lit "title")).
    { vm_compute in Hi. repeat (destruct Hi as [Hi|Hi]; [injection Hi as <- <- <-; vm_compute in Hc;
        repeat (destruct Hc as [Hc|Hc]; [injection Hc as <- <-; vm_compute; tauto|]); destruct Hc|]). destruct Hi. }
    destruct N as [N|[N|[N|[N|N]]]]; injection N as -> ->.
    + vm_compute. apply ht_num; try discriminate; auto.
    + vm_compute. apply ht_str; auto.
    + vm_compute. apply ht_list; auto.
    + vm_compute. apply ht_str; auto.
    + vm_compute. apply ht_list; auto.
  - intros c n [H|[]]. injection H as <- <-. right. vm_compute. reflexivity.
Qed.

(** Passing the type checker is not enough in general: an attribute of the inferred type
    SET equals no literal set, *)
Theorem C74_set_refuted : exists text a n', parse_text ascii_only text 0 = Ok (a, n') /\ ex_verdict text = Some ResPass /\
  (let st := tc_state (fst (check ascii_only (checker_new a) 4)) in
   st_lookup_type ascii_only (ts_heap st) (ts_table st) (lit "user.groups") = Some ST_SET) /\
  forall h tb level t, heap_ok h -> t <> UNDEF ->
    snd (evaluate ascii_only h (interp_new a) tb level) <> Ok (Some (RV (VTri t))).
Proof.
  exists (lit "user.groups = {""dev"", ""ops""}"). eexists _, _. split; [vm_compute; reflexivity|].
  split; [vm_compute; reflexivity|]. split; [vm_compute; reflexivity|].
  intros h tb level t Hh Ht He.
  match type of He with snd (evaluate ?U ?h ?i ?tb ?level) = _ => destruct (evaluate U h i tb level) as [it' x] eqn:Ee end.
  cbn [snd] in He. subst x.
  eapply (C19_evaluation ascii_only h (lit "user.groups = {""dev"", ""ops""}") 0 _ _ tb level) in Ee;
    [|exact ascii_only_ok|exact Hh|vm_compute; reflexivity].
  destruct Ee as (p & Hp & [E|(c & n & l & -> & _)]); vm_compute in Hp; [|discriminate].
  injection Hp as <-. injection E as E. apply Ht. rewrite E. cbn [den operand_kind]. unfold cmp_den.
  destruct (att_kind _) as [| | | |v|l] eqn:K; try reflexivity; pose proof (att_kind_att (env_of ascii_only h tb CatUser (lit "groups"))) as A;
  change (lit "groups") with [103;114;111;117;112;115]%N in A; try (rewrite K in A; contradiction); reflexivity.
Qed.
(** an attribute compared with NULL is undecided whatever its value, *)
Theorem C74_null_refuted : exists text a n', parse_text ascii_only text 0 = Ok (a, n') /\ ex_verdict text = Some ResPass /\
  forall h tb level t, heap_ok h -> t <> UNDEF ->
    snd (evaluate ascii_only h (interp_new a) tb level) <> Ok (Some (RV (VTri t))).
Proof.
  exists (lit "user.age = NULL"). eexists _, _. split; [vm_compute; reflexivity|].
  split; [vm_compute; reflexivity|].
  intros h tb level t Hh Ht He.
  match type of He with snd (evaluate ?U ?h ?i ?tb ?level) = _ => destruct (evaluate U h i tb level) as [it' x] eqn:Ee end.
  cbn [snd] in He. subst x.
  eapply (C19_evaluation ascii_only h (lit "user.age = NULL") 0 _ _ tb level) in Ee;
    [|exact ascii_only_ok|exact Hh|vm_compute; reflexivity].
  destruct Ee as (p & Hp & [E|(c & n & l & -> & _)]); vm_compute in Hp; [|discriminate].
  injection Hp as <-. injection E as E. apply Ht. rewrite E. cbn [den operand_kind]. unfold cmp_den.
  unfold att_kind. destruct (env_of ascii_only h tb CatUser _) as [[ty v]|]; try reflexivity.
  destruct ty, v as [| | | | |[]| | |]; reflexivity.
Qed.
(** and the verdict depends on the order in which comparisons are written: a later
    comparison can contradict an earlier one unnoticed. *)
Theorem C74_order_refuted : exists text1 text2 h tb,
  ex_verdict text1 = Some ResPass /\ ex_verdict text2 = Some ResWarn /\ heap_ok h /\
  (exists a n' b m', parse_text ascii_only text1 0 = Ok (a, n') /\ parse_text ascii_only text2 0 = Ok (b, m') /\
   map w_kind (i_warnings (fst (evaluate ascii_only h (interp_new a) tb (Some 3)))) = [WOperator] /\
   snd (evaluate ascii_only h (interp_new a) tb (Some 3)) = Ok (Some (RV (VTri UNDEF))) /\
   snd (evaluate ascii_only h (interp_new b) tb (Some 3)) = Ok (Some (RV (VTri UNDEF)))).
Proof.
  exists (lit "user.name < user.nick AND user.name = ""ann"""), (lit "user.name = ""ann"" AND user.name < user.nick").
  exists [ex_sym (lit "name") USR_ATT ST_STRING (VStr (lit "ann")); ex_sym (lit "nick") USR_ATT ST_STRING (VStr (lit "a"))].
  exists (Some [(lit "user.name", 0%nat); (lit "user.nick", 1%nat)]).
  split; [vm_compute; reflexivity|]. split; [vm_compute; reflexivity|]. split; [repeat constructor|].
  eexists _, _, _, _. split; [vm_compute; reflexivity|]. split; [vm_compute; reflexivity|]. vm_compute. auto.
Qed.

Print Assumptions C71_evaluation.
Print Assumptions C71_rendering.
Print Assumptions C71_types.
Print Assumptions C72_decisions.
Print Assumptions C72_types.
Print Assumptions C72_single_refuted.
Print Assumptions C73_errors.
Print Assumptions C73_error_undef.
Print Assumptions C73_in_refuted.
Print Assumptions C74_decided.
Print Assumptions C74_set_refuted.
Print Assumptions C74_null_refuted.
Print Assumptions C74_order_refuted.
