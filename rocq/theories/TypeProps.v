(** * TypeProps: the theorems about the type checker (C14 - C17) *)

From Coq Require Import NArith ZArith List Bool String Lia.
From Verif Require Import PyBase PyNum Lexer LexSpec LexProofs LexProofs2 LexProps Values Ast Parser Grammar
  ParseProofs ParseProofs2 Syntax PrintProofs ParseProps AbsProofs Symbols Interp EvalSpec EvalProofs EvalProofs2
  SymbolProps TypeCheck TypeSpec TypeProofs.
Import ListNotations.
Open Scope Z_scope.

(** A TypeChecker for a parsed text on which check() is called with several levels. *)
Fixpoint checks (U : unicode) (c : checker) (levels : list Z) : checker * list check_result :=
  match levels with
  | [] => (c, [])
  | lvl :: r => let '(c1, x) := check U c lvl in let '(c2, xs) := checks U c1 r in (c2, x :: xs)
  end.

(** The policy of a parsed tree and its comparisons. *)
Lemma comparisons_abs t : forall p, abs t = Some p -> map abstract (comparisons t) = pol_comparisons p.
Proof.
  induction t as [c t ks IH] using ptree_ind'. intros p H. rewrite Forall_forall in IH.
  apply abs_inv in H as [(-> & -> & x & Hv & ->)|[(k & s & Hc & Hv & -> & ->)|[(-> & k & q & -> & Hq & ->)|
      [(-> & l & r & o & a & b & -> & Hv & Hl & Hr & ->)|(-> & l & r & a & b & -> & Hl & Hr & Hv)]]]].
  - reflexivity.
  - destruct c; try discriminate; reflexivity.
  - cbn. apply IH; cbn; auto.
  - cbn [comparisons]. rewrite Hv, Hl, Hr. destruct o; reflexivity.
  - cbn [comparisons]. rewrite map_app, (IH l (or_introl eq_refl) a Hl), (IH r (or_intror (or_introl eq_refl)) b Hr).
    destruct Hv as [[_ ->]|[_ ->]]; reflexivity.
Qed.

Lemma parsed_typed U text last a n' : unicode_ok U -> parse_text U text last = Ok (a, n') -> typed (erase a).
Proof. intros uok H. apply C08_text_sound in H as (u & e & _ & _ & Hg); auto. eapply typed_g; eauto. Qed.

(** The list repeated. *)
Fixpoint times {A} (m : nat) (l : list A) : list A := match m with O => [] | S m => times m l ++ l end.

Lemma times_map {A B} (f : A -> B) m l : map f (times m l) = times m (map f l).
Proof. induction m as [|m IH]; cbn; auto. now rewrite map_app, IH. Qed.

Section Parsed.
Variable U : unicode.

Definition level_hit (lvl : Z) (l : list issue) : check_result :=
  match find (fun i => lvl <=? is_type i) l with Some i => RaisedIssue i | None => Returned l end.

Lemma check_one c p m lvl : tc_ast c = tc_ast c -> abs (erase (tc_ast c)) = Some p -> typed (erase (tc_ast c)) ->
  psteady U (attributes p) ->
  tinv U (tc_state c) (times m (attributes p)) (map abstract (times m (comparisons (erase (tc_ast c)))))
       (issues U (times m (comparisons (erase (tc_ast c))))) ->
  known_only U (times m (attributes p)) (map abstract (times m (comparisons (erase (tc_ast c))))) ->
  exists c', check U c lvl = (c', level_hit lvl (issues U (times (S m) (comparisons (erase (tc_ast c)))))) /\
    tc_ast c' = tc_ast c /\ tc_checked c' = true /\
    tinv U (tc_state c') (times (S m) (attributes p)) (map abstract (times (S m) (comparisons (erase (tc_ast c)))))
       (issues U (times (S m) (comparisons (erase (tc_ast c))))) /\
    known_only U (times (S m) (attributes p)) (map abstract (times (S m) (comparisons (erase (tc_ast c))))).
Proof.
  intros _ Ha Ht Hp Hi Ho.
  destruct (scan_pol U (tc_ast c) p _ _ _ _ Hi Ho Ha Ht Hp) as (st & E & I & O).
  unfold check. rewrite E.
  assert (Ei : issues U (times m (comparisons (erase (tc_ast c)))) ++
     issues_after U (map abstract (times m (comparisons (erase (tc_ast c))))) (comparisons (erase (tc_ast c)))
     = issues U (times (S m) (comparisons (erase (tc_ast c))))).
  { unfold issues. cbn [times]. now rewrite issues_after_app. }
  rewrite Ei in I. rewrite <- map_app in I, O.
  pose proof (ti_issues _ _ _ _ _ I) as Es.
  eexists. split; [rewrite Es; reflexivity|]. cbn. auto.
Qed.

Lemma checks_all p levels : forall c m, abs (erase (tc_ast c)) = Some p -> typed (erase (tc_ast c)) ->
  psteady U (attributes p) ->
  tinv U (tc_state c) (times m (attributes p)) (map abstract (times m (comparisons (erase (tc_ast c)))))
       (issues U (times m (comparisons (erase (tc_ast c))))) ->
  known_only U (times m (attributes p)) (map abstract (times m (comparisons (erase (tc_ast c))))) ->
  let '(c', rs) := checks U c levels in
  let m' := (m + List.length levels)%nat in
    tinv U (tc_state c') (times m' (attributes p)) (map abstract (times m' (comparisons (erase (tc_ast c)))))
       (issues U (times m' (comparisons (erase (tc_ast c))))) /\
    (levels <> [] -> tc_checked c' = true) /\ (levels = [] -> c' = c) /\
    rs = map (fun '(k, lvl) => level_hit lvl (issues U (times k (comparisons (erase (tc_ast c))))))
           (combine (seq (S m) (List.length levels)) levels).
Proof.
  induction levels as [|lvl r IH]; intros c m Ha Ht Hp Hi Ho; cbn [checks].
  - cbn [List.length]. rewrite Nat.add_0_r. split; [exact Hi|]. split; [intros X; now destruct X|]. auto.
  - destruct (check_one c p m lvl) as (c1 & E & Ea & Ec & I1 & O1); auto.
    rewrite E. specialize (IH c1 (S m)). rewrite Ea in IH. specialize (IH Ha Ht Hp I1 O1).
    destruct (checks U c1 r) as [c2 xs]. destruct IH as (I2 & C2 & C3 & ->).
    cbn [List.length]. rewrite <- plus_n_Sm. cbn [plus] in I2. split; auto. split; [|split].
    + intros _. destruct r; [rewrite C3; auto|apply C2; discriminate].
    + discriminate.
    + cbn [seq combine map]. reflexivity.
Qed.

End Parsed.

(** The facts about the checks of a parsed text. *)
Lemma parsed_checks U text last a n' p levels : unicode_ok U -> parse_text U text last = Ok (a, n') ->
  abs (erase a) = Some p -> steady U (attributes p) ->
  let '(c', rs) := checks U (checker_new a) levels in
  let m' := List.length levels in
    tinv U (tc_state c') (times m' (attributes p)) (map abstract (times m' (comparisons (erase a))))
       (issues U (times m' (comparisons (erase a)))) /\
    (levels <> [] -> tc_checked c' = true) /\ (levels = [] -> c' = checker_new a) /\
    rs = map (fun '(k, lvl) => level_hit lvl (issues U (times k (comparisons (erase a)))))
           (combine (seq 1 (List.length levels)) levels).
Proof.
  intros uok H Ha Hn. pose proof (parsed_typed _ _ _ _ _ uok H) as Ht.
  apply (checks_all U p levels (checker_new a) 0); auto.
  - apply Forall_forall. exact Hn.
  - split; cbn; auto. intros k l [].
  - intros x. now left.
Qed.

Lemma firsts_times l m : firsts [] (times (S m) l) = firsts [] l.
Proof.
  assert (App : forall x y seen, firsts seen (x ++ y) = firsts seen x ++ firsts (seen ++ x) y).
  { induction x as [|k x IH]; intros y seen; cbn [app firsts]; [now rewrite app_nil_r|].
    destruct (mem k seen) eqn:E; rewrite IH.
    - apply mem_in in E. f_equal. apply firsts_ext. intros z. rewrite !in_app_iff. cbn. split; [tauto|].
      intros [H|[<-|H]]; auto.
    - cbn [app]. f_equal. f_equal. apply firsts_ext. intros z. cbn. rewrite !in_app_iff. cbn. tauto. }
  assert (Seen : forall x seen, (forall k, In k x -> In k seen) -> firsts seen x = []).
  { induction x as [|k x IH]; intros seen H; cbn; auto.
    assert (mem k seen = true) as -> by (apply mem_in; apply H; now left). apply IH. intros z Hz. apply H. now right. }
  induction m as [|m IH]; [reflexivity|]. change (times (S (S m)) l) with (times (S m) l ++ l). rewrite App, IH, (Seen l ([] ++ times (S m) l)); [now rewrite app_nil_r|].
  intros k Hk. cbn. apply in_or_app. auto.
Qed.

Lemma in_times {A} (x : A) m l : In x (times m l) -> In x l.
Proof. induction m as [|m IH]; cbn; [tauto|]. intros H. apply in_app_or in H as [H|H]; auto. Qed.

Lemma inferred_app U l1 l2 a : inferred U (l1 ++ l2) a = if type_eqb (inferred U l1 a) ST_UNKNOWN then inferred U l2 a else inferred U l1 a.
Proof.
  induction l1 as [|k l1 IH]; cbn [app inferred]; auto. destruct (evidence U a k) as [t|] eqn:E; auto.
  apply evidence_known in E. destruct (type_eqb t ST_UNKNOWN) eqn:E1; auto. apply type_eqb_eq in E1. congruence.
Qed.
Lemma inferred_times U m l a : inferred U (times (S m) l) a = inferred U l a.
Proof.
  induction m as [|m IH]; [reflexivity|]. change (times (S (S m)) l) with (times (S m) l ++ l).
  rewrite inferred_app, IH. destruct (type_eqb _ _) eqn:E; auto.
Qed.

Lemma att_key_inj U a b : att_key U a = att_key U b -> fst a = fst b /\ py_lower U (snd a) = py_lower U (snd b).
Proof.
  destruct a as [c n], b as [d m]. unfold att_key. cbn [fst snd]. intros H.
  destruct c, d; try discriminate H; split; auto; revert H; cbn; congruence.
Qed.

(** ** C14 *)

(** After any number of calls of check(), whatever they raise, the table has one entry
    for every attribute (category and name without case), in the order of their first
    occurrence, and no other entry; *)
Theorem C14_names (U : unicode) (text : str) (last n' : Z) (a : ast) (p : pol) (level : Z) (levels : list Z) :
  unicode_ok U -> parse_text U text last = Ok (a, n') -> abs (erase a) = Some p -> steady U (attributes p) ->
  let c := fst (checks U (checker_new a) (level :: levels)) in
  map fst (ts_table (tc_state c)) = firsts [] (map (att_key U) (attributes p)).
Proof.
  intros uok H Ha Hn. pose proof (parsed_checks U text last a n' p (level :: levels) uok H Ha Hn) as Q.
  destruct (checks _ _ _) as [c rs]. destruct Q as (I & _). cbn [fst List.length] in *.
  rewrite (ti_keys _ _ _ _ _ I), times_map. apply firsts_times.
Qed.

(** the entry is found under the name as written, and is a symbol without value for
    that category and name; different attributes have different symbols. *)
Theorem C14_symbols (U : unicode) (text : str) (last n' : Z) (a : ast) (p : pol) (level : Z) (levels : list Z) :
  unicode_ok U -> parse_text U text last = Ok (a, n') -> abs (erase a) = Some p -> steady U (attributes p) ->
  let st := tc_state (fst (checks U (checker_new a) (level :: levels))) in
  (forall c n, In (c, n) (attributes p) ->
     exists l, st_lookup U (ts_table st) (cat_word c ++ n) = Some l /\
       sy_name (hget (ts_heap st) l) = att_key U (c, n) /\ sy_att_name (hget (ts_heap st) l) = py_lower U n /\
       sy_att_type (hget (ts_heap st) l) = cat_type c /\ sy_value (hget (ts_heap st) l) = VNone) /\
  (forall c n d m l, In (c, n) (attributes p) -> In (d, m) (attributes p) ->
     st_lookup U (ts_table st) (cat_word c ++ n) = Some l -> st_lookup U (ts_table st) (cat_word d ++ m) = Some l ->
     c = d /\ py_lower U n = py_lower U m).
Proof.
  intros uok H Ha Hn. pose proof (parsed_checks U text last a n' p (level :: levels) uok H Ha Hn) as Q.
  destruct (checks _ _ _) as [c0 rs]. destruct Q as (I & _). cbn [fst List.length] in *. cbv zeta.
  assert (P : forall c n, In (c, n) (attributes p) ->
     exists l, st_lookup U (ts_table (tc_state c0)) (cat_word c ++ n) = Some l /\
       sy_name (hget (ts_heap (tc_state c0)) l) = att_key U (c, n) /\
       sy_att_name (hget (ts_heap (tc_state c0)) l) = py_lower U n /\
       sy_att_type (hget (ts_heap (tc_state c0)) l) = cat_type c /\ sy_value (hget (ts_heap (tc_state c0)) l) = VNone).
  { intros c n Hi. assert (Hi' : In (c, n) (times (S (List.length levels)) (attributes p))) by (cbn; apply in_or_app; auto).
    destruct (tinv_lookup _ _ _ _ _ _ _ I Hi' (Hn _ Hi)) as (l & El & _ & x & Kx & _ & _ & G).
    exists l. unfold st_lookup. change (cat_word c) with (cat_prefix c). rewrite (cat_key U c n (Hn _ Hi)), El.
    rewrite G. unfold att_symbol. cbn [sy_name sy_att_name sy_att_type sy_value]. 
    pose proof (att_key_inj _ _ _ Kx) as [E1 E2]. cbn [fst snd] in *. rewrite E1, E2. auto. }
  split; auto. intros c n d m l H1 H2 L1 L2.
  destruct (P c n H1) as (l1 & E1 & N1 & _). destruct (P d m H2) as (l2 & E2 & N2 & _).
  apply (att_key_inj U (c, n) (d, m)). congruence.
Qed.

(** ** C15 *)

(** IN, SUBSET, comparisons of two attributes and NULL say nothing about types, *)
Theorem C15_silent (U : unicode) (a : cat * str) (o : cmp) (l r : operand) :
  o = OpIn \/ o = OpSubset \/ (exists c n d m, l = OAtt c n /\ r = OAtt d m) \/ l = OAtom ANull \/ r = OAtom ANull ->
  evidence U a (o, l, r) = None.
Proof.
  intros H. destruct (evidence U a (o, l, r)) as [t|] eqn:E; auto. exfalso.
  apply evidence_inv in E as [E|E]; apply told_inv in E as (c & n & -> & Hc & _ & Ht);
  (destruct H as [->|[->|[(c1 & n1 & d1 & m1 & H1 & H2)|[H|H]]]];
   [destruct t; discriminate Ht|destruct t; discriminate Ht| | |]);
   try discriminate; subst; try discriminate Hc; injection Hc as <-; destruct o; discriminate Ht.
Qed.

(** and the type of an attribute is that of the first constant that says something,
    UNKNOWN if none does; further calls of check() do not change it. *)
Theorem C15_types (U : unicode) (text : str) (last n' : Z) (a : ast) (p : pol) (level : Z) (levels : list Z) (c : cat) (n : str) :
  unicode_ok U -> parse_text U text last = Ok (a, n') -> abs (erase a) = Some p -> steady U (attributes p) ->
  In (c, n) (attributes p) ->
  let st := tc_state (fst (checks U (checker_new a) (level :: levels))) in
  (forall before k after t, pol_comparisons p = before ++ k :: after ->
     Forall (fun x => evidence U (c, n) x = None) before -> evidence U (c, n) k = Some t ->
     st_lookup_type U (ts_heap st) (ts_table st) (cat_word c ++ n) = Some t) /\
  (Forall (fun x => evidence U (c, n) x = None) (pol_comparisons p) ->
     st_lookup_type U (ts_heap st) (ts_table st) (cat_word c ++ n) = Some ST_UNKNOWN).
Proof.
  intros uok H Ha Hn Hi. pose proof (parsed_checks U text last a n' p (level :: levels) uok H Ha Hn) as Q.
  destruct (checks _ _ _) as [c0 rs]. destruct Q as (I & _). cbn [fst List.length] in *. cbv zeta.
  assert (P : st_lookup_type U (ts_heap (tc_state c0)) (ts_table (tc_state c0)) (cat_word c ++ n) =
              Some (inferred U (pol_comparisons p) (c, n))).
  { assert (Hi' : In (c, n) (times (S (List.length levels)) (attributes p))) by (cbn; apply in_or_app; auto).
    destruct (tinv_lookup _ _ _ _ _ _ _ I Hi' (Hn _ Hi)) as (l & El & _ & x & Kx & _ & _ & G).
    unfold st_lookup_type, st_lookup. change (cat_word c) with (cat_prefix c).
    rewrite (cat_key U c n (Hn _ Hi)), El. cbn [option_map].
    rewrite G. unfold att_symbol. cbn [sy_type]. f_equal. rewrite times_map, inferred_times, (comparisons_abs _ p Ha).
    now apply inferred_key. }
  assert (None_all : forall l r, Forall (fun x => evidence U (c, n) x = None) l -> inferred U (l ++ r) (c, n) = inferred U r (c, n)).
  { induction l as [|k l IH]; intros r F; auto. inversion F as [|? ? F1 F2]; subst. cbn. rewrite F1. auto. }
  rewrite P. split.
  - intros before k after t Ek F Hk. rewrite Ek, None_all by auto. cbn [inferred]. now rewrite Hk.
  - intros F. rewrite <- (app_nil_r (pol_comparisons p)), None_all by auto. reflexivity.
Qed.

(** ** C16 *)

(** The recorded issues: an error for every ill typed comparison, a warning for every
    other one that contradicts the types inferred before it.  Calling check() m times
    records the issues of the policy's comparisons written m times in a row. *)
Theorem C16_issues (U : unicode) (text : str) (last n' : Z) (a : ast) (p : pol) (levels : list Z) :
  unicode_ok U -> parse_text U text last = Ok (a, n') -> abs (erase a) = Some p -> steady U (attributes p) ->
  get_issues (fst (checks U (checker_new a) levels)) =
  issues U (times (List.length levels) (comparisons (erase a))).
Proof.
  intros uok H Ha Hn. pose proof (parsed_checks U text last a n' p levels uok H Ha Hn) as Q.
  destruct (checks _ _ _) as [c rs]. destruct Q as (I & _). apply (ti_issues _ _ _ _ _ I).
Qed.

(** The comparisons are those of the policy. *)
Theorem C16_comparisons (t : ptree) (p : pol) :
  abs t = Some p -> map abstract (comparisons t) = pol_comparisons p.
Proof. apply comparisons_abs. Qed.

Lemma issue_severity U ks : forall before i, In i (issues_after U before ks) -> is_type i = 3 \/ is_type i = 2.
Proof.
  induction ks as [|k ks IH]; intros before i; cbn [issues_after]; [intros []|].
  intros Hi. apply in_app_or in Hi as [Hi|Hi]; [|exact (IH _ _ Hi)].
  unfold issue_of in Hi. destruct (ill_typed _ _ _); [destruct Hi as [<-|[]]; cbn; auto|].
  destruct (doubtful _ _ _ _); [destruct Hi as [<-|[]]; cbn; auto|destruct Hi].
Qed.
Lemma errors_of U before k : filter (fun i => is_type i =? 3) (issue_of U before k) =
  if ill_typed (k_op k) (k_left k) (k_right k)
  then [Issue 3 (class_check (k_op k)) (t_pos (k_tok k)) (k_tok k) (k_ltok k) (k_rtok k)] else [].
Proof. unfold issue_of. destruct (ill_typed _ _ _); auto. destruct (doubtful _ _ _ _); auto. Qed.
Lemma errors_after U ks : forall before, filter (fun i => is_type i =? 3) (issues_after U before ks) =
  map (fun k => Issue 3 (class_check (k_op k)) (t_pos (k_tok k)) (k_tok k) (k_ltok k) (k_rtok k))
      (filter (fun k => ill_typed (k_op k) (k_left k) (k_right k)) ks).
Proof.
  induction ks as [|k ks IH]; intros before; cbn [issues_after filter map]; auto.
  rewrite filter_app, errors_of, IH. destruct (ill_typed _ _ _); auto.
Qed.

(** The errors do not depend on inferred types: they are the ill typed comparisons. *)
Theorem C16_errors (U : unicode) (text : str) (last n' : Z) (a : ast) (p : pol) (level : Z) :
  unicode_ok U -> parse_text U text last = Ok (a, n') -> abs (erase a) = Some p -> steady U (attributes p) ->
  get_errors (fst (check U (checker_new a) level)) =
  map (fun k => Issue 3 (class_check (k_op k)) (t_pos (k_tok k)) (k_tok k) (k_ltok k) (k_rtok k))
      (filter (fun k => ill_typed (k_op k) (k_left k) (k_right k)) (comparisons (erase a))).
Proof.
  intros uok H Ha Hn. pose proof (C16_issues U text last n' a p [level] uok H Ha Hn) as Q.
  cbn [checks] in Q. destruct (check U (checker_new a) level) as [c x]. cbn [fst] in *.
  unfold get_errors. unfold get_issues in Q. rewrite Q. cbn [List.length times app]. apply errors_after.
Qed.

(** check(level) raises the first issue recorded so far that reaches the level and
    otherwise returns all of them. *)
Theorem C16_levels (U : unicode) (text : str) (last n' : Z) (a : ast) (p : pol) (levels : list Z) (level : Z) :
  unicode_ok U -> parse_text U text last = Ok (a, n') -> abs (erase a) = Some p -> steady U (attributes p) ->
  let '(c', x) := check U (fst (checks U (checker_new a) levels)) level in
  match x with
  | Returned l => l = get_issues c' /\ forall i, In i l -> is_type i < level
  | RaisedIssue i => level <= is_type i /\ exists l1 l2, get_issues c' = l1 ++ i :: l2 /\ forall j, In j l1 -> is_type j < level
  | Crashed _ => False
  end.
Proof.
  intros uok H Ha Hn.
  assert (Snoc : forall lv c, fst (checks U c (lv ++ [level])) = fst (check U (fst (checks U c lv)) level) /\
     snd (checks U c (lv ++ [level])) = snd (checks U c lv) ++ [snd (check U (fst (checks U c lv)) level)]).
  { induction lv as [|x lv IH]; intros c; cbn [app checks].
    - cbn [fst snd]. destruct (check U c level). cbn. auto.
    - destruct (check U c x) as [c1 y]. specialize (IH c1). destruct (checks U c1 (lv ++ [level])), (checks U c1 lv).
      cbn [fst snd] in *. destruct IH as [-> ->]. auto. }
  destruct (Snoc levels (checker_new a)) as [S1 S2].
  pose proof (parsed_checks U text last a n' p (levels ++ [level]) uok H Ha Hn) as Q.
  destruct (checks U (checker_new a) (levels ++ [level])) as [c' rs]. cbn [fst snd] in *.
  destruct Q as (I & _ & _ & Hr).
  destruct (check U (fst (checks U (checker_new a) levels)) level) as [c2 x]. cbn [fst snd] in *. subst c'.
  assert (Ex : x = level_hit level (get_issues c2)).
  { unfold get_issues. rewrite (ti_issues _ _ _ _ _ I).
    rewrite app_length in *. cbn [List.length] in *. rewrite Nat.add_1_r in *. rewrite seq_S in Hr.
    assert (Hc : forall {A B} (l1 : list A) (l2 : list B) u v, List.length l1 = List.length l2 ->
      combine (l1 ++ [u]) (l2 ++ [v]) = combine l1 l2 ++ [(u, v)]).
    { induction l1 as [|? ? IH]; intros [|? ?] ? ? E; try discriminate; cbn; auto. rewrite IH; auto. }
    rewrite Hc, map_app in Hr by apply seq_length. cbn [map app] in Hr. rewrite S2 in Hr.
    apply app_inj_tail in Hr as [_ ->]. reflexivity. }
  rewrite Ex. unfold level_hit. destruct (find _ _) as [i|] eqn:E.
  - split; [apply find_some in E as [_ E]; lia|].
    clear - E. generalize dependent (get_issues c2). intros l E.
    induction l as [|y l IH]; cbn in E; [discriminate|].
    destruct (level <=? is_type y) eqn:Ey.
    + injection E as ->. exists [], l. split; auto. intros j [].
    + destruct (IH E) as (l1 & l2 & -> & Hl). exists (y :: l1), l2. split; auto.
      intros j [<-|Hj]; [lia|auto].
  - split; auto. intros i Hi. pose proof (find_none _ _ E i Hi) as Hf. cbn in Hf. lia.
Qed.

(** get_result() summarises the issues; before the first check() it is NONE. *)
Theorem C16_result (U : unicode) (text : str) (last n' : Z) (a : ast) (p : pol) (level : Z) :
  unicode_ok U -> parse_text U text last = Ok (a, n') -> abs (erase a) = Some p -> steady U (attributes p) ->
  get_result (checker_new a) = ResNone /\
  let c := fst (check U (checker_new a) level) in
  (get_result c = ResError <-> exists o l r, In (o, l, r) (pol_comparisons p) /\ ill_typed o l r = true) /\
  (get_result c = ResPass <-> get_issues c = []) /\
  (get_result c = ResWarn <-> get_errors c = [] /\ get_warnings c <> []).
Proof.
  intros uok H Ha Hn. split; [reflexivity|].
  pose proof (C16_errors U text last n' a p level uok H Ha Hn) as Q.
  pose proof (C16_issues U text last n' a p [level] uok H Ha Hn) as Q2.
  pose proof (parsed_checks U text last a n' p [level] uok H Ha Hn) as Q3.
  cbn [checks] in *. destruct (check U (checker_new a) level) as [c x]. cbn [fst] in *. cbv zeta.
  destruct Q3 as (_ & Hc & _). specialize (Hc ltac:(discriminate)).
  cbn [List.length times app] in Q2. fold (get_issues c) in Q2.
  assert (Kinds : forall i, In i (get_issues c) -> is_type i = 3 \/ is_type i = 2).
  { rewrite Q2. intros i. apply issue_severity. }
  assert (Res : get_result c = match get_issues c with [] => ResPass | _ => if existsb (fun i => is_type i =? 3) (get_issues c) then ResError else ResWarn end).
  { unfold get_result, get_issues. rewrite Hc. cbn [negb]. destruct (ts_issues (tc_state c)); reflexivity. }
  assert (Ex : existsb (fun i => is_type i =? 3) (get_issues c) = true <-> get_errors c <> []).
  { rewrite existsb_exists. unfold get_errors. fold (get_issues c). split.
    - intros (i & Hi & Ei) E. assert (F : In i (filter (fun i => is_type i =? 3) (get_issues c))) by (apply filter_In; auto).
      rewrite E in F. destruct F.
    - destruct (filter (fun i => is_type i =? 3) (get_issues c)) as [|i r] eqn:E; intros Hne; [exfalso; now apply Hne|]. exists i. apply (filter_In (fun i => is_type i =? 3)). rewrite E. now left. }
  assert (Er : get_errors c <> [] <-> exists o l r, In (o, l, r) (pol_comparisons p) /\ ill_typed o l r = true).
  { rewrite Q, <- (comparisons_abs _ p Ha). split.
    - destruct (filter _ _) as [|k r] eqn:E; intros Hne; [exfalso; now apply Hne|].
      assert (Hk : In k (k :: r)) by now left. rewrite <- E in Hk. apply filter_In in Hk as [Hk1 Hk2].
      exists (k_op k), (k_left k), (k_right k). split; auto. apply in_map_iff. exists k. auto.
    - intros (o & l & r & Hi & Hil) E. apply in_map_iff in Hi as (k & Ek & Hk). unfold abstract in Ek.
      injection Ek as <- <- <-. apply map_eq_nil in E.
      assert (F : In k (filter (fun k => ill_typed (k_op k) (k_left k) (k_right k)) (comparisons (erase a))))
        by (apply filter_In; auto). rewrite E in F. destruct F. }
  rewrite Res. split; [|split]; split.
  - intros R. apply Er. apply Ex. destruct (get_issues c) as [|i l]; [discriminate|].
    destruct (existsb _ _); auto; discriminate.
  - intros He. apply Er in He. apply Ex in He. destruct (get_issues c) as [|i l]; [discriminate|]. now rewrite He.
  - intros R. destruct (get_issues c); auto. destruct (existsb _ _); discriminate.
  - intros ->. reflexivity.
  - intros R. destruct (existsb _ _) eqn:E; [destruct (get_issues c); discriminate|]. split.
    + destruct (get_errors c) as [|i l] eqn:E1; auto. assert (F : i :: l <> []) by discriminate. apply Ex in F. congruence.
    + intros E1. destruct (get_issues c) as [|i l] eqn:Ei; [discriminate|].
      destruct (Kinds i (or_introl eq_refl)) as [K|K].
      * cbn in E. rewrite K in E. discriminate.
      * assert (F : In i (get_warnings c)).
        { unfold get_warnings. fold (get_issues c). rewrite Ei. apply filter_In. split; [now left|]. now rewrite K. }
        rewrite E1 in F. destruct F.
  - intros [E1 E2]. destruct (existsb _ _) eqn:E; [exfalso; now apply Ex|].
    destruct (get_issues c) eqn:Ei; auto. exfalso. apply E2. unfold get_warnings. fold (get_issues c). now rewrite Ei.
Qed.

(** ** C17 *)

(** check() raises nothing but recorded issues, however often it is called; *)
Theorem C17_no_crash (U : unicode) (text : str) (last n' : Z) (a : ast) (p : pol) (levels : list Z) (e : exc) :
  unicode_ok U -> parse_text U text last = Ok (a, n') -> abs (erase a) = Some p -> steady U (attributes p) ->
  ~ In (Crashed e) (snd (checks U (checker_new a) levels)).
Proof.
  intros uok H Ha Hn. pose proof (parsed_checks U text last a n' p levels uok H Ha Hn) as Q.
  destruct (checks _ _ _) as [c rs]. destruct Q as (_ & _ & _ & ->). cbn [snd]. intros Hi.
  apply in_map_iff in Hi as ([k lvl] & E & _). unfold level_hit in E. destruct (find _ _); discriminate.
Qed.

(** with a level above ERROR (the default is CRIT, 4) it always returns. *)
Theorem C17_default (U : unicode) (text : str) (last n' : Z) (a : ast) (p : pol) (level : Z) :
  unicode_ok U -> parse_text U text last = Ok (a, n') -> abs (erase a) = Some p -> steady U (attributes p) -> 3 < level ->
  let '(c, x) := check U (checker_new a) level in x = Returned (get_issues c).
Proof.
  intros uok H Ha Hn Hl. pose proof (C16_levels U text last n' a p [] level uok H Ha Hn) as Q.
  pose proof (C16_issues U text last n' a p [level] uok H Ha Hn) as Q2.
  cbn [checks fst] in *. destruct (check U (checker_new a) level) as [c x]. cbn [fst] in *.
  destruct x as [l|i|e]; [now destruct Q as [-> _]| |destruct Q].
  destruct Q as (Hi & l1 & l2 & El & _). exfalso. rewrite El in Q2. cbn [List.length times app] in Q2.
  assert (Hin : In i (issues U (comparisons (erase a)))) by (rewrite <- Q2; apply in_or_app; right; now left).
  apply issue_severity in Hin. lia.
Qed.

(** *** Policies written in ASCII *)

Definition ascii_names (p : pol) : Prop := forall c n, In (c, n) (attributes p) -> is_ascii n = true.
Definition pascii (l : list (cat * str)) : Prop := Forall (fun a => is_ascii (snd a) = true) l.

(** ASCII names are steady, whatever Python does with other letters. *)
Theorem C14_ascii_steady (U : unicode) (p : pol) : ascii_names p -> steady U (attributes p).
Proof.
  intros H [c n] Hi. specialize (H _ _ Hi). unfold steady_name. cbn [fst snd].
  pose proof (lower_ascii n H) as H'. pose proof (lower_idem n H) as H2.
  unfold att_key. cbn [fst snd]. rewrite (py_lower_ascii U n H).
  assert (L : forall m, is_ascii m = true -> lower m = lower n -> py_lower U (cat_word c ++ m) = cat_word c ++ lower n).
  { intros m Hm E. rewrite py_lower_ascii.
    - rewrite <- E. unfold lower. rewrite map_app. destruct c; reflexivity.
    - unfold is_ascii in *. rewrite forallb_app, Hm. destruct c; reflexivity. }
  intros m [->| ->]; apply L; auto.
Qed.


Definition tok_ascii (t : token) : Prop := match t_val t with TStr s => is_ascii s = true | _ => True end.
Inductive all_toks (P : token -> Prop) : ptree -> Prop :=
| all_toks_pt c t ks : P t -> Forall (all_toks P) ks -> all_toks P (PT c t ks).

Lemma is_ascii_app a b : is_ascii (a ++ b) = is_ascii a && is_ascii b.
Proof. apply forallb_app. Qed.

Lemma lexeme_ascii U s rest ty v p : is_ascii s = true -> lexeme U s rest ty v -> tok_ascii (Tok ty p v).
Proof.
  intros Hs. destruct 1 as [ty v H|H _|H _|body H _| | |c s' kw ty v H Hc Hf Hl Hk Hr|c s' d i cat ty H Hc Hf Hi Hl Hk Hr];
  unfold tok_ascii; cbn; auto.
  - destruct H; cbn; auto.
  - subst s. cbn in Hs. rewrite is_ascii_app in Hs. now apply andb_true_iff in Hs as [Hs _].
  - destruct Hk; reflexivity.
  - subst s. rewrite is_ascii_app in Hs. apply andb_true_iff in Hs as [_ Hs]. exact Hs.
Qed.
Lemma tiles_ascii U p text ts : tiles U p text ts -> is_ascii text = true -> Forall tok_ascii ts.
Proof.
  induction 1 as [p ws Hw|p ws s rest ty v ts Hw Hl Ht IH]; intros Ha; constructor; auto.
  - exact I.
  - rewrite !is_ascii_app in Ha. apply andb_true_iff in Ha as [_ Ha]. apply andb_true_iff in Ha as [Ha _].
    eapply lexeme_ascii; eauto.
  - rewrite !is_ascii_app in Ha. apply andb_true_iff in Ha as [_ Ha]. apply andb_true_iff in Ha as [_ Ha]. auto.
Qed.

Ltac leaf1 := match goal with H : Forall _ [_] |- _ => inversion H; subst; constructor; auto end.
Lemma toks_att P u a : g_att u a -> Forall P u -> all_toks P a.
Proof. destruct 1; intros; leaf1. Qed.
Lemma toks_atomic P u a : g_atomic u a -> Forall P u -> all_toks P a.
Proof. destruct 1; intros; leaf1. Qed.
Lemma toks_setval P u l : g_setval u l -> Forall P u -> Forall (all_toks P) l.
Proof.
  induction 1 as [u a H|u a c v l H Hc Hl IH]; intros F.
  - constructor; auto. eapply toks_atomic; eauto.
  - apply Forall_app in F as [F1 F2]. inversion F2; subst. constructor; auto. eapply toks_atomic; eauto.
Qed.
Lemma toks_var P u a : g_var u a -> Forall P u -> all_toks P a.
Proof.
  destruct 1 as [u a H|u a H|u a H]; [eapply toks_atomic; eauto| |eapply toks_att; eauto].
  destruct H as [lb rb Hl Hr|lb u l rb Hl Hs Hr]; intros F; inversion F as [|? ? F1 F2]; subst; constructor; auto.
  apply Forall_app in F2 as [F2 _]. eapply toks_setval; eauto.
Qed.
Lemma toks_boolvar P u a : g_boolvar u a -> Forall P u -> all_toks P a.
Proof. destruct 1 as [t H|u a H]; [intros; leaf1|eapply toks_att; eauto]. Qed.
Lemma toks_g P :
  (forall u a, g_exp u a -> Forall P u -> all_toks P a) /\ (forall u a, g_term u a -> Forall P u -> all_toks P a) /\
  (forall u a, g_policy u a -> Forall P u -> all_toks P a).
Proof.
  apply g_mind; auto.
  - intros u l o v r Hl Ho Hr F. split_forall. constructor; auto. constructor; [eapply toks_var; eauto|].
    constructor; auto. eapply toks_var; eauto.
  - intros u b H. eapply toks_boolvar; eauto.
  - intros t u b Ht H F. split_forall. constructor; auto. constructor; auto. eapply toks_boolvar; eauto.
  - intros lp u p rp Hl Hp IH Hr F. split_forall. auto.
  - intros t lp u p rp Ht Hl Hp IH Hr F. split_forall. constructor; auto.
  - intros u l a v r Hl IHl Ha Hr IHr F. split_forall. constructor; auto.
  - intros u l a v r Hl IHl Ha Hr IHr F. split_forall. constructor; auto.
Qed.

Lemma toks_inv P c t ks : all_toks P (PT c t ks) -> P t /\ Forall (all_toks P) ks.
Proof. inversion 1; auto. Qed.

Lemma operand_ascii t o : abs_operand t = Some o -> all_toks tok_ascii t -> pascii (operand_atts o).
Proof.
  destruct t as [c t ks]. intros H Ht. apply toks_inv in Ht as [Ht _].
  apply abs_operand_inv in H as [(e & l & -> & _ & ->)|[(k & s & Hc & Hv & Hk & ->)|(a & Ha & ->)]]; try constructor.
  - cbn. unfold tok_ascii in Ht. now rewrite Hv in Ht.
  - constructor.
Qed.
Lemma pol_ascii t : forall p, abs t = Some p -> all_toks tok_ascii t -> pascii (attributes p).
Proof.
  induction t as [c t ks IH] using ptree_ind'. intros p H Ht. rewrite Forall_forall in IH.
  apply toks_inv in Ht as [Ht Hk].
  apply abs_inv in H as [(-> & -> & x & Hv & ->)|[(k & s & Hc & Hv & -> & ->)|[(-> & k & q & -> & Hq & ->)|
      [(-> & l & r & o & a & b & -> & Hv & Hl & Hr & ->)|(-> & l & r & a & b & -> & Hl & Hr & Hv)]]]].
  - constructor.
  - constructor; [|constructor]. unfold tok_ascii in Ht. now rewrite Hv in Ht.
  - inversion Hk; subst. cbn. apply (IH k (or_introl eq_refl)); auto.
  - inversion Hk as [|? ? K1 K2]; subst. inversion K2; subst. apply Forall_app. split; eapply operand_ascii; eauto.
  - inversion Hk as [|? ? K1 K2]; subst. inversion K2 as [|? ? K3 _]; subst.
    assert (Q : pascii (attributes a ++ attributes b)).
    { apply Forall_app. split; [apply (IH l (or_introl eq_refl))|apply (IH r (or_intror (or_introl eq_refl)))]; auto. }
    destruct Hv as [[_ ->]|[_ ->]]; exact Q.
Qed.

(** The names of a policy written in ASCII are ASCII. *)
Theorem C17_ascii_text (U : unicode) (text : str) (last n' : Z) (a : ast) :
  unicode_ok U -> parse_text U text last = Ok (a, n') -> is_ascii text = true ->
  exists p, abs (erase a) = Some p /\ ascii_names p /\
    let '(c, x) := check U (checker_new a) 4 in x = Returned (get_issues c).
Proof.
  intros uok H Ht. destruct (parse_text_abs _ _ _ _ _ uok H) as [p Ha]. exists p. split; auto.
  assert (Hn : ascii_names p).
  { pose proof (C08_text_sound _ _ _ _ _ uok H) as (u & e & Hl & _ & Hg).
    apply (lex_text_iff U uok) in Hl as (ts & E & Hti). apply tiles_ascii in Hti; auto.
    injection E as <-. apply Forall_app in Hti as [Hti _].
    apply (proj2 (proj2 (toks_g tok_ascii))) in Hg; auto. apply pol_ascii with (p := p) in Hg; auto.
    intros c n Hi. exact (proj1 (Forall_forall _ _) Hg (c, n) Hi). }
  split; auto. eapply C17_default; eauto; [now apply C14_ascii_steady|lia].
Qed.

(** With other names check() can crash: "user.Σ" lower-cases to "user.ς", "Σ" to "σ", so
    the symbol defined for the attribute is not found.  [sigma] gives Σ, σ and ς their
    CPython behaviour on these strings. *)
Definition sigma_c (c : N) : N := if (c =? 931)%N then 962%N else lower_c c.
Definition sigma : unicode := {|
  u_space := fun _ => false;
  u_alpha := fun c => (c =? 931)%N || (c =? 962)%N || (c =? 963)%N;
  u_digit := fun _ => false; u_decimal := fun _ => None;
  u_lower := fun s => if str_eqb s [931%N] then [963%N] else map sigma_c s;
  u_upper := fun s => s |}.

Lemma sigma_lower s : is_ascii s = false -> is_ascii (u_lower sigma s) = false.
Proof.
  intros H. cbn [sigma u_lower]. destruct (str_eqb s _); [reflexivity|].
  unfold is_ascii in *. induction s as [|c s IH]; [discriminate|]. cbn in *.
  apply andb_false_iff in H as [H|H]; [|rewrite IH by auto; apply andb_false_r].
  apply andb_false_iff. left. unfold sigma_c, lower_c, up, asc in *. apply N.ltb_ge in H.
  destruct (c =? 931)%N; [reflexivity|]. assert ((c <=? 90)%N = false) as -> by (apply N.leb_gt; lia).
  rewrite andb_false_r. apply N.ltb_ge. exact H.
Qed.
Lemma sigma_ok : unicode_ok sigma.
Proof.
  split; try (intros; discriminate || reflexivity).
  - intros s ty v H K. apply sigma_lower in H. destruct K; discriminate H.
  - intros s ty H K. apply sigma_lower in H. destruct K; discriminate H.
Qed.

Definition sigma_text : str := lit "user." ++ [931%N] ++ lit " = 1".
Definition sigma_ast : ast := match parse_text sigma sigma_text 0 with Ok (a, _) => a | Err _ => Node CAst (Tok END 0 TNone) 0 None [] end.
Theorem C17_other_names_refuted :
  exists U text a n' , unicode_ok U /\ parse_text U text 0 = Ok (a, n') /\
    snd (check U (checker_new a) 4) = Crashed EGeneric.
Proof.
  exists sigma, sigma_text, sigma_ast, 3. split; [exact sigma_ok|]. split; vm_compute; reflexivity.
Qed.

(** Beyond that, steadiness cannot be dropped: one comparison of an attribute with a constant
    crashes the check exactly when its name, as written behind the category, is not lowered to
    the name the symbol was defined by. *)
Theorem C17_crash_iff (U : unicode) (text : str) (last n' : Z) (a : ast) (o : cmp) (c : cat) (n : str) (x : atom) (level : Z) :
  unicode_ok U -> parse_text U text last = Ok (a, n') ->
  abs (erase a) = Some (PCmp o (OAtt c n) (OAtom x)) ->
  op_class_of o = Ineq \/ op_class_of o = Equality -> ill_typed o (OAtt c n) (OAtom x) = false ->
  ((exists e, snd (check U (checker_new a) level) = Crashed e) <->
   py_lower U (cat_word c ++ n) <> py_lower U (att_key U (c, n))).
Proof.
  intros uok H Ha Ho Hw. pose proof (parsed_typed _ _ _ _ _ uok H) as Ht. clear H.
  destruct a as [c0 t i r kids]. cbn [erase] in *. apply typed_inv in Ht as [_ Htk].
  apply abs_inv in Ha as [(_ & _ & b & _ & E)|[(k & s & _ & _ & _ & E)|[(_ & k & q & _ & _ & E)|
      [(-> & l & rr & o' & a' & b' & Hk & Hv & Hl & Hr & E)|(_ & l & rr & a' & b' & _ & _ & _ & [[_ E]|[_ E]])]]]]; try discriminate E.
  injection E as <- <- <-.
  destruct kids as [|k1 [|k2 [|? ?]]]; try discriminate. injection Hk as <- <-.
  inversion Htk as [|? ? T1 Htk2]; subst. inversion Htk2 as [|? ? T2 _]; subst.
  unfold check. cbn [checker_new tc_ast tc_state]. rewrite scan_two.
  destruct k1 as [c1 t1 i1 r1 ks1]. cbn [erase] in *. pose proof Hl as Hl0. apply abs_operand_inv in Hl as [(e & l & -> & _ & E)|[(k & s & Hc & Hv1 & Hk & E)|(a0 & _ & E)]]; try discriminate E.
  injection E as <- <-. destruct ks1; [|discriminate].
  assert (Tt1 : t_type t1 = cat_type c) by (apply typed_inv in T1 as [T1 _]; apply T1; now apply cat_type_class).
  unfold scan_kid at 1. replace (skipped (Node c1 t1 i1 r1 [])) with false by (destruct c1; try discriminate; reflexivity).
  rewrite scan_unfold, (att_cls _ _ Hc). unfold att_node. cbn [n_tok]. rewrite Hv1, Tt1, (key_new U c n).
  unfold halloc, st_define. rewrite hget_new. cbn [sy_name ts_table ts_heap ts_issues assoc app].
  assert (Sk : skipped k2 = true).
  { destruct k2 as [c2 t2 i2 r2 ks2]. cbn [erase] in Hr. apply abs_operand_inv in Hr as [(e & l & -> & _ & E)|[(k & s & _ & _ & _ & E)|(a0 & Ha & E)]]; try discriminate E.
    destruct (abs_atom_leaf _ _ _ _ Ha) as [_ D]. destruct D as [->|[->|[->| ->]]]; reflexivity. }
  unfold scan_kid. rewrite Sk. cbn [is_att_cls].
  destruct (operand_view (Node c1 t1 i1 r1 []) _ Hl0 T1) as (La & Ls & Lu & Li & Lt & Lc & Ln & _).
  destruct (operand_view _ _ Hr T2) as (Ra & Rs & Ru & Ri & Rt & Rc & Rn & _).
  set (st := TS _ _ _). set (nd := Node COp t i r _).
  assert (Case : op_node U st nd = att_check U st nd).
  { unfold op_node. change (n_tok nd) with t. rewrite Hv.
    unfold num_check, eq_check. change (n_left nd) with (Some (Node c1 t1 i1 r1 [])). change (n_right nd) with (Some k2). cbn iota.
    rewrite La, Ls, Lu, Ra, Rs, Ru. unfold ill_typed in Hw. destruct o; destruct Ho as [Ho|Ho]; try discriminate Ho; destruct x; try discriminate Hw; reflexivity. }
  rewrite Case. unfold att_check. change (n_left nd) with (Some (Node c1 t1 i1 r1 [])). change (n_right nd) with (Some k2). cbn iota.
  rewrite La, Ra. cbn [is_oatt andb]. rewrite (Ln c n eq_refl). cbn iota. unfold st_lookup at 1.
  change (cat_prefix c) with (cat_word c). subst st. cbn [ts_table assoc ts_heap].
  destruct (str_eqb (py_lower U (cat_word c ++ n)) (py_lower U (att_key U (c, n)))) eqn:E.
  - apply str_eqb_eq in E. split; [|intros D; now destruct D]. intros [e He]. exfalso. revert He.
    cbn [List.length hget nth sy_type sy_name symtype_eqb].
    unfold st_switch_type, st_lookup. cbn [sy_name assoc]. rewrite str_eqb_refl. cbn iota. 
    cbn. discriminate.
  - split; [|intros _; eexists; reflexivity]. intros _ D. rewrite D, str_eqb_refl in E. discriminate.
Qed.

(** ** Examples *)

Definition ex_check (text : str) (levels : list Z) : res (list (str * symtype) * list (Z * check_name * Z) * tc_result) :=
  match parse_text ascii_only text 0 with
  | Ok (a, _) =>
      let c := fst (checks ascii_only (checker_new a) levels) in
      Ok (map (fun e => (fst e, sy_type (hget (ts_heap (tc_state c)) (snd e)))) (ts_table (tc_state c)),
          map (fun i => (is_type i, is_check i, is_pos i)) (get_issues c), get_result c)
  | Err e => Err e
  end.

(** A policy with attributes of every kind of evidence, a warning and errors. *)
Example C14_case : ex_check (lit "user.Age > 18 AND (user.age = ""x"" OR object.owner = user.name) AND NOT admin.ok") [4] =
  Ok ([(lit "user.age", ST_INT); (lit "object.owner", ST_UNKNOWN); (lit "user.name", ST_UNKNOWN); (lit "admin.ok", ST_UNKNOWN)],
      [(2, AttCheck, 28)], ResWarn).
Proof. vm_compute. reflexivity. Qed.
Example C15_case : ex_check (lit "user.a IN {1} AND user.a < NULL AND user.a != 1.5 AND user.a = {1} AND user.a > {2}") [4] =
  Ok ([(lit "user.a", ST_FLOAT)],
      [(3, NumCheck, 25); (2, AttCheck, 61); (2, AttCheck, 78)], ResError).
Proof. vm_compute. reflexivity. Qed.
(** A second call finds an issue the first one cannot: types are known now. *)
Example C16_case : ex_check (lit "user.a = user.b AND user.a = 1") [4; 2] =
  Ok ([(lit "user.a", ST_INT); (lit "user.b", ST_UNKNOWN)], [(2, AttCheck, 7)], ResWarn).
Proof. vm_compute. reflexivity. Qed.
Example C16_raises : match parse_text ascii_only (lit "user.a > 1 AND user.a > ""x"" AND 1 IN 2") 0 with
  | Ok (a, _) => match check ascii_only (checker_new a) 3 with
                 | (_, RaisedIssue i) => (is_type i, is_check i, is_pos i) = (3, NumCheck, 22)
                 | _ => False
                 end
  | Err _ => False end.
Proof. vm_compute. reflexivity. Qed.
Example C17_case : is_ascii (lit "user.a > 1") = true /\ exists a n', parse_text ascii_only (lit "user.a > 1") 0 = Ok (a, n').
Proof. split; [reflexivity|]. vm_compute. eauto. Qed.

(** A policy whose names are steady but not ASCII, and the one that crashes. *)
Example C14_steady_case : exists a n' p, parse_text sigma (lit "user." ++ [963%N] ++ lit "X = 1 AND user." ++ [963%N] ++ lit "x = 2") 0 = Ok (a, n') /\
  abs (erase a) = Some p /\ ~ ascii_names p /\ steady sigma (attributes p) /\
  firsts [] (map (att_key sigma) (attributes p)) = [lit "user." ++ [963%N] ++ lit "x"].
Proof.
  eexists _, _, _. split; [vm_compute; reflexivity|]. split; [vm_compute; reflexivity|]. split; [|split].
  - intros H. specialize (H CatUser [963%N; 88%N] (or_introl eq_refl)). discriminate H.
  - intros b [<-|[<-|[]]] m [->| ->]; vm_compute; reflexivity.
  - vm_compute. reflexivity.
Qed.
Example C17_crash_case : exists n' o c n x, parse_text sigma sigma_text 0 = Ok (sigma_ast, n') /\
  abs (erase sigma_ast) = Some (PCmp o (OAtt c n) (OAtom x)) /\ op_class_of o = Equality /\
  ill_typed o (OAtt c n) (OAtom x) = false /\ py_lower sigma (cat_word c ++ n) <> py_lower sigma (att_key sigma (c, n)).
Proof.
  exists 3, OpEq, CatUser, [931%N], (AInt 1). split; [vm_compute; reflexivity|]. split; [vm_compute; reflexivity|].
  split; [reflexivity|]. split; [reflexivity|]. vm_compute. discriminate.
Qed.

Print Assumptions C14_names.
Print Assumptions C14_symbols.
Print Assumptions C14_ascii_steady.
Print Assumptions C15_silent.
Print Assumptions C15_types.
Print Assumptions C16_issues.
Print Assumptions C16_comparisons.
Print Assumptions C16_errors.
Print Assumptions C16_levels.
Print Assumptions C16_result.
Print Assumptions C17_no_crash.
Print Assumptions C17_default.
Print Assumptions C17_ascii_text.
Print Assumptions C17_other_names_refuted.
Print Assumptions C17_crash_iff.
