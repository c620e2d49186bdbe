(** * TypeDiagProofs: the messages of the type checker are those of the specification *)

From Coq Require Import NArith ZArith List Bool String Lia.
From Verif Require Import PyBase PyNum AttCert Errors Lexer LexSpec Values Ast Parser Grammar ParseProofs ParseProofs2 Syntax PrintProofs ParseProps AbsProofs
  Symbols Interp EvalSpec EvalProofs EvalProofs2 SymbolProps TypeCheck TypeSpec TypeProofs TypeProps TypeDiag TypeDiagSpec.
Import ListNotations.
Open Scope Z_scope.

(** ** Without the messages it is the checker *)

Section WithUnicode.
Variable U : unicode.

Lemma m_att_fst st n : fst (m_att_check U st n) = att_check U st n.
Proof.
  unfold m_att_check, att_check. destruct (n_left n) as [l|]; [|reflexivity]. destruct (n_right n) as [r|]; [|reflexivity].
  destruct (is_att l && is_att r).
  - destruct (att_to_symbol_name _ _); [|reflexivity]. destruct (att_to_symbol_name _ _); [|reflexivity].
    destruct (st_lookup _ _ _); [|reflexivity]. destruct (st_lookup _ _ _); [|reflexivity]. cbv zeta.
    destruct (_ && _); reflexivity.
  - destruct (if is_att l then _ else _) as [a v]. destruct (att_to_symbol_name _ _); [|reflexivity]. cbv zeta.
    destruct (st_lookup _ _ _); [|reflexivity]. destruct (symtype_eqb _ _).
    + destruct (st_switch_type _ _ _ _ _) as [[h b]|]; reflexivity.
    + destruct (_ && _); reflexivity.
Qed.

Lemma m_op_fst st n : fst (m_op_node U st n) = op_node U st n.
Proof.
  unfold m_op_node, op_node. destruct (t_val (n_tok n)); try reflexivity.
  destruct (existsb _ _); [|destruct (existsb _ _); [|destruct (str_eqb _ _); [|destruct (str_eqb _ _); [|reflexivity]]]].
  - unfold m_num_check, num_check. destruct (n_left n) as [l|]; [|reflexivity]. destruct (n_right n) as [r|]; [|reflexivity].
    destruct (_ || _); [reflexivity|]. destruct (_ || _); [reflexivity|]. destruct (_ || _); [apply m_att_fst|].
    destruct (_ || _); reflexivity.
  - unfold m_eq_check, eq_check. destruct (n_left n) as [l|]; [|reflexivity]. destruct (n_right n) as [r|]; [|reflexivity].
    destruct (is_att l || is_att r); [apply m_att_fst|].
    destruct (_ || _); [reflexivity|]. destruct (_ || _); [reflexivity|]. destruct (_ || _); reflexivity.
  - unfold m_in_check, in_check. destruct (n_left n) as [l|]; [|reflexivity]. destruct (n_right n) as [r|]; [|reflexivity].
    destruct (is_null r); [reflexivity|]. destruct (is_setn l); [reflexivity|]. destruct (is_string r); [reflexivity|].
    destruct (is_int r); [reflexivity|]. destruct (is_float r); reflexivity.
  - unfold m_subset_check, subset_check. destruct (n_left n) as [l|]; [|reflexivity]. destruct (n_right n) as [r|]; [|reflexivity].
    destruct (negb _); reflexivity.
Qed.

(** The children of a node, then the node. *)
Fixpoint m_kids (st : tstate) (l : list ast) : mout :=
  match l with
  | [] => quiet (st, None)
  | k :: rest =>
      if skipped k then m_kids st rest
      else let '((st', e), ms) := m_scan_tree U st k in
           match e with
           | Some x => ((st', Some x), ms)
           | None => let '(o, ms') := m_kids st' rest in (o, ms ++ ms')
           end
  end.
Lemma m_scan_unfold st c t i r ks : m_scan_tree U st (Node c t i r ks) =
  let '((st1, e), ms) := m_kids st ks in
  match e with
  | Some x => ((st1, Some x), ms)
  | None =>
      if is_att_cls c then (att_node U st1 (Node c t i r ks), ms)
      else match c with COp => let '(o, ms') := m_op_node U st1 (Node c t i r ks) in (o, ms ++ ms') | _ => ((st1, None), ms) end
  end.
Proof.
  cbn [m_scan_tree]. match goal with |- (let '(_, _) := ?f st ks in _) = _ => assert (E : forall l st, f st l = m_kids st l) end.
  { clear. induction l as [|k l IH]; intros st; [reflexivity|]. cbn [m_kids]. destruct (skipped k); [apply IH|].
    destruct (m_scan_tree U st k) as [[st' [x|]] ms]; [reflexivity|]. now rewrite (IH st'). }
  now rewrite E.
Qed.

Lemma m_scan_fst n : forall st, fst (m_scan_tree U st n) = scan_tree U st n.
Proof.
  induction n as [c t i r ks IH] using ast_ind'. intros st. rewrite m_scan_unfold, scan_unfold.
  match goal with |- _ = let '(_, _) := ?f st ks in _ => set (go := f) end.
  assert (E : forall st, fst (m_kids st ks) = go st ks).
  { clear st. induction IH as [|k l Hk F IHl]; intros st; [reflexivity|]. cbn [m_kids]. unfold go. fold go. cbn iota beta.
    destruct (skipped k); [apply IHl|]. rewrite <- (Hk st). destruct (m_scan_tree U st k) as [[st' [x|]] ms]; cbn [fst]; [reflexivity|].
    rewrite <- IHl. destruct (m_kids st' l); reflexivity. }
  rewrite <- (E st). destruct (m_kids st ks) as [[st1 [x|]] ms]; cbn [fst]; [reflexivity|].
  destruct (is_att_cls c); [reflexivity|]. destruct c; try reflexivity.
  rewrite <- m_op_fst. destruct (m_op_node _ _ _); reflexivity.
Qed.

(** ** The messages *)

Definition blame (o : cmp) (l r : operand) : string :=
  match op_class_of o with
  | Ineq => match kind_of l, kind_of r with
            | KText, _ | _, KText => "Type Error, strings can not be compared using inequality operations."
            | KNothing, _ | _, KNothing => "Type Error, NULL value can not be compared using inequality operations."
            | _, _ => "Type Error, sets can not be compared using inequality operations."
            end
  | Equality => match kind_of l, kind_of r with
            | KNothing, _ | _, KNothing => "Type Error, NULL value can only be compared with other NULL values and attributes."
            | KText, _ | _, KText => "Type Error, string values can only be compared with other string values and attributes."
            | _, _ => "Type Error, sets can only be compared with other sets and attributes."
            end
  | Member => match r, kind_of l with
            | OAtom ANull, _ => "Type Error, NULL value can only be used on the left hand side of IN operations."
            | _, KColl => "Type Error, set values can only be used on the right hand side of IN operations."
            | OAtom (AStr _), _ => "Type Error, string value can only be used on the left hand side of IN operations."
            | OAtom (AInt _), _ => "Type Error, int value can only be used on the left hand side of IN operations."
            | _, _ => "Type Error, float value can only be used on the left hand side of IN operations."
            end
  | Subset => "Type Error, only sets and attributes can be compared using the SUBSET operation."
  end.
Definition doubt (l r : operand) : str :=
  match l, r with
  | OAtt c n, OAtt d m => both_msg (att_key U (c, n)) (att_key U (d, m))
  | OAtt c n, _ | _, OAtt c n => one_msg (att_key U (c, n))
  | _, _ => []
  end.
Definition said (before : list (cmp * operand * operand)) (k : comparison) : list str :=
  if ill_typed (k_op k) (k_left k) (k_right k) then [lit (blame (k_op k) (k_left k) (k_right k))]
  else if doubtful (inferred U before) (k_op k) (k_left k) (k_right k) then [doubt (k_left k) (k_right k)] else [].
Fixpoint said_after (before : list (cmp * operand * operand)) (ks : list comparison) : list str :=
  match ks with [] => [] | k :: r => said before k ++ said_after (before ++ [abstract k]) r end.

Lemma wrong_blame o l r m : wrong o l r m <-> ill_typed o l r = true /\ m = blame o l r.
Proof.
  split.
  - intros H. destruct H; unfold ill_typed, blame;
      match goal with H : op_class_of _ = _ |- _ => rewrite H; clear H end;
      destruct l as [[]| |]; try (destruct r as [[]| |]); cbn in *; try (split; reflexivity);
      exfalso; intuition congruence.
  - intros [H ->]. revert H. unfold ill_typed, blame. destruct (op_class_of o) eqn:E; destruct l as [[]| |], r as [[]| |]; cbn; try discriminate; intros _;
      (first [apply wr_text|apply wr_null|apply wr_sets|apply wr_eq_null|apply wr_eq_text|apply wr_eq_set|apply wr_in_null
             |apply wr_in_set|apply wr_in_text|apply wr_in_int|apply wr_in_float|apply wr_subset]; cbn; auto; try congruence;
       solve [auto|intuition congruence]).
Qed.

Lemma m_att_said st atts ks iss t i r lnd rnd o a b :
  tinv U st atts ks iss ->
  abs_operand (erase lnd) = Some a -> abs_operand (erase rnd) = Some b -> typed (erase lnd) -> typed (erase rnd) ->
  all_in U a atts -> all_in U b atts ->
  is_oatt a || is_oatt b = true -> cmp_class o = true ->
  snd (m_att_check U st (Node COp t i r [lnd; rnd])) = if doubtful (inferred U ks) o a b then [doubt a b] else [].
Proof.
  intros Hi Ha Hb Ta Tb Ia Ib Hat Hcl.
  destruct (operand_view _ _ Ha Ta) as (La & _ & _ & _ & _ & Lc & Ln & _).
  destruct (operand_view _ _ Hb Tb) as (Ra & _ & _ & _ & _ & Rc & Rn & _).
  unfold m_att_check. change (n_left (Node COp t i r [lnd; rnd])) with (Some lnd).
  change (n_right (Node COp t i r [lnd; rnd])) with (Some rnd). cbn iota. rewrite La, Ra.
  assert (Doubt : doubtful (inferred U ks) o a b =
    match a, b with
      | OAtt c n, OAtt d m => clash (inferred U ks (c, n)) (inferred U ks (d, m))
      | OAtt c n, x | x, OAtt c n =>
          match const_type x with
          | Some t => negb (type_eqb (inferred U ks (c, n)) ST_UNKNOWN) && clash (inferred U ks (c, n)) t
          | None => false
          end
      | _, _ => false
      end).
  { unfold doubtful. unfold cmp_class in Hcl. destruct (op_class_of o); try discriminate; reflexivity. }
  rewrite Doubt. clear Doubt.
  assert (One : forall c n u, In (c, n) atts -> steady_name U (c, n) ->
    snd (match st_lookup U (ts_table st) (cat_prefix c ++ n) with
         | Some al =>
             let s := hget (ts_heap st) al in
             if symtype_eqb (sy_type s) ST_UNKNOWN then
               match st_switch_type U (ts_heap st) (ts_table st) (sy_name s) u with
               | Ok (h, _) => quiet (TS h (ts_table st) (ts_issues st), None)
               | Err e => quiet (st, Some e)
               end
             else if negb (symtype_eqb (sy_type s) u) && negb (is_num_type (sy_type s) && is_num_type u)
             then m_error st (Node COp t i r [lnd; rnd]) (one_msg (sy_name s)) AttCheck lnd rnd else quiet (st, None)
         | None => quiet (st, Some EGeneric)
         end) = if negb (type_eqb (inferred U ks (c, n)) ST_UNKNOWN) && clash (inferred U ks (c, n)) u then [one_msg (att_key U (c, n))] else []).
  { intros c n u I1 A1. destruct (tinv_lookup _ _ _ _ _ _ _ Hi I1 A1) as (l1 & E1 & L1 & x1 & K1 & _ & _ & G1).
    unfold st_lookup at 1. rewrite (cat_key U c n A1), E1. cbv zeta. rewrite G1. cbn [sy_type sy_name att_symbol].
    rewrite clash_ok, type_eqb_ok, (inferred_key U x1 (c, n)), K1 by auto.
    destruct (type_eqb _ _); cbn [negb andb]; [destruct (st_switch_type _ _ _ _ _) as [[h b0]|]; reflexivity|].
    destruct (clash _ _); reflexivity. }
  destruct (is_oatt a) eqn:Oa; destruct (is_oatt b) eqn:Ob; cbn [andb orb] in *; try discriminate.
  - destruct a as [| |c n]; try discriminate. destruct b as [| |d m]; try discriminate.
    rewrite (Ln c n), (Rn d m) by auto.
    destruct (Ia c n eq_refl) as [I1 A1]. destruct (Ib d m eq_refl) as [I2 A2].
    destruct (tinv_lookup _ _ _ _ _ _ _ Hi I1 A1) as (l1 & E1 & L1 & x1 & K1 & _ & _ & G1).
    destruct (tinv_lookup _ _ _ _ _ _ _ Hi I2 A2) as (l2 & E2 & L2 & x2 & K2 & _ & _ & G2).
    unfold st_lookup. rewrite (cat_key U c n A1), (cat_key U d m A2), E1, E2. cbv zeta. rewrite G1, G2.
    cbn [sy_type sy_name att_symbol doubt]. rewrite clash_ok, (inferred_key U x1 (c, n)), (inferred_key U x2 (d, m)), K1, K2 by auto.
    destruct (clash _ _); reflexivity.
  - destruct a as [| |c n]; try discriminate. rewrite (Ln c n) by auto. cbn iota.
    destruct (Ia c n eq_refl) as [I1 A1].
    destruct (const_type b) as [u|] eqn:Eu; [|destruct b as [[]| |]; discriminate].
    rewrite (Rc u eq_refl). etransitivity; [exact (One c n u I1 A1)|].
    destruct b as [[]| |]; try discriminate; injection Eu as <-; reflexivity.
  - destruct b as [| |c n]; try discriminate. rewrite (Rn c n) by auto. cbn iota.
    destruct (Ib c n eq_refl) as [I1 A1].
    destruct (const_type a) as [u|] eqn:Eu; [|destruct a as [[]| |]; discriminate].
    rewrite (Lc u eq_refl). etransitivity; [exact (One c n u I1 A1)|].
    destruct a as [[]| |]; try discriminate; injection Eu as <-; reflexivity.
Qed.

Lemma int_view nd o : abs_operand (erase nd) = Some o ->
  is_int nd = match o with OAtom (AInt _) => true | _ => false end /\ is_float nd = match o with OAtom (AFloat _) => true | _ => false end.
Proof.
  destruct nd as [c t i r ks]. cbn [erase]. intros Ha. unfold is_int, is_float. cbn [n_cls].
  apply abs_operand_inv in Ha as [(e & l & -> & _ & ->)|[(k & s & Hc & Hv & _ & ->)|(a & Ha & ->)]].
  - auto.
  - destruct c; try discriminate; auto.
  - destruct (abs_atom_leaf _ _ _ _ Ha) as [E D]. destruct t as [ty tp v]. destruct ks; [|discriminate].
    destruct D as [->|[->|[->| ->]]]; cbn in Ha |- *; destruct v; try discriminate; injection Ha as <-; auto.
Qed.

Lemma m_op_said st atts ks iss t i r lnd rnd o a b :
  tinv U st atts ks iss -> t_val t = TStr (cmp_str o) ->
  abs_operand (erase lnd) = Some a -> abs_operand (erase rnd) = Some b -> typed (erase lnd) -> typed (erase rnd) ->
  all_in U a atts -> all_in U b atts ->
  snd (m_op_node U st (Node COp t i r [lnd; rnd])) = said ks (Comp o a b t (n_tok lnd) (n_tok rnd)).
Proof.
  intros Hi Ht Ha Hb Ta Tb Ia Ib.
  pose proof (m_att_said st atts ks iss t i r lnd rnd o a b Hi Ha Hb Ta Tb Ia Ib) as AC.
  destruct (operand_view _ _ Ha Ta) as (La & Ls & Lu & Li & Lt & _ & _ & _).
  destruct (operand_view _ _ Hb Tb) as (Ra & Rs & Ru & _ & Rt & _ & _ & _).
  destruct (int_view _ _ Hb) as [Ri Rf].
  pose proof (doubtful_const (inferred U ks) o a b) as DC.
  unfold said. cbn [k_op k_left k_right k_tok k_ltok k_rtok].
  set (nd := Node COp t i r [lnd; rnd]) in *.
  assert (Case : m_op_node U st nd =
    match op_class_of o with Ineq => m_num_check U st nd | Equality => m_eq_check U st nd
      | Member => m_in_check st nd | Subset => m_subset_check st nd end).
  { unfold m_op_node. change (n_tok nd) with t. rewrite Ht. destruct o; reflexivity. }
  rewrite Case. clear Case. unfold cmp_class in *.
  unfold m_num_check, m_eq_check, m_in_check, m_subset_check.
  change (n_left nd) with (Some lnd). change (n_right nd) with (Some rnd). cbn iota.
  rewrite Ri, Rf, La, Ls, Lu, Lt, Ra, Rs, Ru, Rt. unfold ill_typed, blame in *.
  destruct (op_class_of o) eqn:Eo;
  (assert (Dn : match op_class_of o with Ineq | Equality => true | _ => false end = false ->
     doubtful (inferred U ks) o a b = false) by (unfold doubtful; rewrite Eo; congruence); rewrite Eo in Dn);
  destruct a as [[]| |], b as [[]| |]; cbn [kind_of is_oatt orb andb negb] in *; try reflexivity;
  try (apply AC; reflexivity);
  try (rewrite DC by reflexivity; reflexivity);
  try (rewrite Dn by reflexivity; reflexivity).
Qed.

(** ** Whole trees *)

Definition m_kid (st : tstate) (n : ast) : mout := if skipped n then quiet (st, None) else m_scan_tree U st n.
Lemma m_kid_fst st n : fst (m_kid st n) = scan_kid U st n.
Proof. unfold m_kid, scan_kid. destruct (skipped n); [reflexivity|apply m_scan_fst]. Qed.

Lemma m_kids_cons st k l : m_kids st (k :: l) =
  let '((st', e), ms) := m_kid st k in
  match e with Some x => ((st', Some x), ms) | None => let '(o, ms') := m_kids st' l in (o, ms ++ ms') end.
Proof. cbn [m_kids]. unfold m_kid, quiet. destruct (skipped k); [|reflexivity]. destruct (m_kids st l); reflexivity. Qed.

Lemma said_after_app l1 : forall l2 before,
  said_after before (l1 ++ l2) = said_after before l1 ++ said_after (before ++ map abstract l1) l2.
Proof.
  induction l1 as [|k l1 IH]; intros l2 before; cbn [app said_after map].
  - now rewrite app_nil_r.
  - rewrite IH. rewrite <- !app_assoc. reflexivity.
Qed.

Lemma kid_ok st nd o : abs_operand (erase nd) = Some o -> snd (m_kid st nd) = [].
Proof.
  destruct nd as [c t i r ks]. cbn [erase]. intros Ha. unfold m_kid.
  destruct (skipped (Node c t i r ks)) eqn:E; [reflexivity|].
  apply abs_operand_inv in Ha as [(e & l & -> & _ & ->)|[(k & s & Hc & Hv & Hk & ->)|(a & Ha & ->)]]; [discriminate| |].
  - destruct ks; [|discriminate]. rewrite m_scan_unfold, (att_cls _ _ Hc). reflexivity.
  - destruct (abs_atom_leaf _ _ _ _ Ha) as [_ D]. destruct D as [->|[->|[->| ->]]]; discriminate.
Qed.

Lemma m_scan_said nd : forall p st atts ks iss,
  tinv U st atts ks iss -> known_only U atts ks -> abs (erase nd) = Some p -> typed (erase nd) -> psteady U (attributes p) ->
  snd (m_scan_tree U st nd) = said_after ks (comparisons (erase nd)).
Proof.
  induction nd as [c t i r kids IH] using ast_ind'. intros p st atts ks iss Hi Ho Ha Ht Hp.
  cbn [erase] in *. pose proof Ht as Ht'. apply typed_inv in Ht' as [Htt Htk].
  assert (Kid : forall k q, In k kids -> abs (erase k) = Some q -> typed (erase k) -> psteady U (attributes q) ->
    forall st atts ks iss, tinv U st atts ks iss -> known_only U atts ks ->
    exists st', m_kid st k = ((st', None), said_after ks (comparisons (erase k))) /\
    tinv U st' (atts ++ attributes q) (ks ++ map abstract (comparisons (erase k)))
         (iss ++ issues_after U ks (comparisons (erase k))) /\
    known_only U (atts ++ attributes q) (ks ++ map abstract (comparisons (erase k)))).
  { intros k q Hk Hq Hty Hpq st1 atts1 ks1 iss1 Hi1 Ho1. unfold m_kid.
    destruct (skipped k) eqn:E.
    - destruct k as [c' t' i' r' ks']. cbn [erase] in *. exists st1.
      apply abs_inv in Hq as [(-> & Hn & x & Hv & ->)|[(k' & s & Hc & _)|[(-> & _)|[(-> & _)|(-> & _)]]]];
        try discriminate E; [|destruct c'; discriminate].
      cbn [attributes comparisons]. destruct ks'; [|discriminate]. cbn. rewrite !app_nil_r. auto.
    - destruct (scan_pol U k q _ _ _ _ Hi1 Ho1 Hq Hty Hpq) as (st' & E1 & E2). exists st'. split; [|exact E2].
      rewrite Forall_forall in IH. pose proof (IH k Hk q _ _ _ _ Hi1 Ho1 Hq Hty Hpq) as S. pose proof (m_scan_fst k st1) as F.
      destruct (m_scan_tree U st1 k) as [x y]. cbn [fst snd] in F, S. rewrite F, S. now rewrite E1. }
  rewrite m_scan_unfold.
  apply abs_inv in Ha as [(-> & Hk & x & Hv & ->)|[(k & s & Hc & Hv & Hk & ->)|[(-> & k & q & Hk & Hq & ->)|
      [(-> & l & rr & o & a & b & Hk & Hv & Hl & Hr & ->)|(-> & l & rr & a & b & Hk & Hl & Hr & Hv)]]]].
  - destruct kids; [|discriminate]. reflexivity.
  - destruct kids; [|discriminate]. rewrite (att_cls _ _ Hc). cbn [m_kids quiet snd].
    replace (comparisons (PT c t (map erase []))) with (@nil comparison) by (destruct c; try discriminate; reflexivity).
    reflexivity.
  - destruct kids as [|k1 [|? ?]]; try discriminate. injection Hk as <-.
    inversion Htk as [|? ? T1 _]; subst.
    rewrite m_kids_cons. destruct (Kid k1 q (or_introl eq_refl) Hq T1 Hp _ _ _ _ Hi Ho) as (st1 & E & _).
    rewrite E. cbn [is_att_cls m_kids quiet snd map]. now rewrite app_nil_r.
  - destruct kids as [|k1 [|k2 [|? ?]]]; try discriminate. injection Hk as <- <-. cbn [map] in Htk.
    inversion Htk as [|? ? T1 Htk2]; subst. inversion Htk2 as [|? ? T2 _]; subst.
    cbn [attributes] in *. apply Forall_app in Hp as [P1 P2].
    rewrite !m_kids_cons.
    destruct (scan_operand U st atts ks iss k1 a Hi Ho Hl T1 P1) as (st1 & E1 & I1 & O1).
    destruct (scan_operand U st1 _ ks iss k2 b I1 O1 Hr T2 P2) as (st2 & E2 & I2 & O2).
    pose proof (kid_ok st k1 a Hl) as S1. rewrite <- m_kid_fst in E1. destruct (m_kid st k1) as [x1 y1]. cbn [fst snd] in *. subst x1 y1.
    rewrite m_kids_cons.
    pose proof (kid_ok st1 k2 b Hr) as S2. rewrite <- m_kid_fst in E2. destruct (m_kid st1 k2) as [x2 y2]. cbn [fst snd] in *. subst x2 y2.
    cbn [is_att_cls m_kids quiet app map]. rewrite <- app_assoc in I2, O2.
    assert (Ia : all_in U a (atts ++ operand_atts a ++ operand_atts b)).
    { intros c n ->. cbn. split; [apply in_or_app; right; cbn; auto|]. now inversion P1. }
    assert (Ib : all_in U b (atts ++ operand_atts a ++ operand_atts b)).
    { intros c n ->. cbn. split; [apply in_or_app; right; apply in_or_app; right; cbn; auto|]. now inversion P2. }
    pose proof (m_op_said st2 _ ks iss t i r k1 k2 o a b I2 Hv Hl Hr T1 T2 Ia Ib) as M.
    destruct (m_op_node U st2 _) as [x y]. cbn [snd] in *. subst y.
    assert (Ec : comparisons (PT COp t [erase k1; erase k2]) = [Comp o a b t (n_tok k1) (n_tok k2)]).
    { cbn [comparisons]. rewrite Hv, Hl, Hr. destruct k1, k2. destruct o; reflexivity. }
    rewrite Ec. cbn [said_after]. now rewrite app_nil_r.
  - destruct kids as [|k1 [|k2 [|? ?]]]; try discriminate. injection Hk as <- <-. cbn [map] in Htk.
    inversion Htk as [|? ? T1 Htk2]; subst. inversion Htk2 as [|? ? T2 _]; subst.
    assert (Hat : attributes p = attributes a ++ attributes b) by (destruct Hv as [[_ ->]|[_ ->]]; reflexivity).
    rewrite Hat in *. apply Forall_app in Hp as [P1 P2].
    rewrite !m_kids_cons.
    destruct (Kid k1 a (or_introl eq_refl) Hl T1 P1 _ _ _ _ Hi Ho) as (st1 & E1 & I1 & O1). rewrite E1, m_kids_cons.
    destruct (Kid k2 b (or_intror (or_introl eq_refl)) Hr T2 P2 _ _ _ _ I1 O1) as (st2 & E2 & I2 & O2). rewrite E2.
    cbn [is_att_cls m_kids quiet snd map].
    change (comparisons (PT CBoolOp t [erase k1; erase k2])) with (comparisons (erase k1) ++ comparisons (erase k2)).
    now rewrite said_after_app, app_nil_r.
Qed.

(** ** Issues with messages *)

Lemma combine_app {A B} (a c : list A) (b d : list B) : List.length a = List.length b -> combine (a ++ c) (b ++ d) = combine a b ++ combine c d.
Proof. revert b. induction a as [|x a IH]; intros [|y b] E; try discriminate; cbn; [reflexivity|]. now rewrite IH by (cbn in E; lia). Qed.

Lemma dubious_doubt l r m : is_oatt l || is_oatt r = true -> (dubious U l r m <-> m = doubt l r).
Proof.
  intros O. split.
  - intros [c n d m'|c n x K|c n x K]; [reflexivity| |]; destruct x as [[]| |]; cbn in K; try reflexivity; congruence.
  - intros ->. destruct l as [|l|c n], r as [|r|d m']; try discriminate O; cbn [doubt];
      [apply du_right|apply du_right|apply du_left|apply du_left|apply du_both];
      try (destruct a as [| | |]; discriminate); discriminate.
Qed.
Lemma doubtful_att T o l r : doubtful T o l r = true -> is_oatt l || is_oatt r = true.
Proof. destruct (is_oatt l || is_oatt r) eqn:E; [reflexivity|]. rewrite doubtful_const by exact E. discriminate. Qed.

Lemma remark_said before k x : remark U before k x <-> In x (combine (issue_of U before k) (said before k)).
Proof.
  unfold issue_of, said. destruct (ill_typed _ _ _) eqn:I; [|destruct (doubtful _ _ _ _) eqn:D]; cbn [combine In].
  - split.
    + intros [m W|m I' _ _]; [|congruence]. apply wrong_blame in W as [_ ->]. auto.
    + intros [<-|[]]. apply rm_error. apply wrong_blame. auto.
  - split.
    + intros [m W|m _ _ W]; [apply wrong_blame in W as [W _]; congruence|]. apply dubious_doubt in W; [|eapply doubtful_att; eauto]. subst. auto.
    + intros [<-|[]]. apply rm_warning; auto. apply dubious_doubt; [eapply doubtful_att; eauto|reflexivity].
  - split; [|intros []]. intros [m W|m _ W _]; [apply wrong_blame in W as [W _]|]; congruence.
Qed.

Lemma said_length before k : List.length (issue_of U before k) = List.length (said before k).
Proof. unfold issue_of, said. destruct (ill_typed _ _ _); [reflexivity|]. destruct (doubtful _ _ _ _); reflexivity. Qed.
Lemma said_short before k : (combine (issue_of U before k) (said before k) = [] \/ exists x, combine (issue_of U before k) (said before k) = [x]).
Proof. unfold issue_of, said. destruct (ill_typed _ _ _); [cbn; eauto|]. destruct (doubtful _ _ _ _); cbn; eauto. Qed.

Lemma said_after_length ks : forall before, List.length (issues_after U before ks) = List.length (said_after before ks).
Proof. induction ks as [|k ks IH]; intros before; [reflexivity|]. cbn. now rewrite !app_length, said_length, IH. Qed.

Lemma remarks_said ks : forall before xs, remarks U before ks xs <-> xs = combine (issues_after U before ks) (said_after before ks).
Proof.
  induction ks as [|k ks IH]; intros before xs.
  - split; [intros H; inversion H; reflexivity|]. intros ->. constructor.
  - cbn [issues_after said_after]. rewrite combine_app by apply said_length. pose proof (remark_said before k) as R. split.
    + intros H. inversion H as [|b k' ks' x xs' Hx Hr|b k' ks' xs' Hn Hr]; subst.
      * apply R in Hx. apply IH in Hr. destruct (said_short before k) as [E|(y & E)]; rewrite E in *; [destruct Hx|].
        destruct Hx as [->|[]]. now subst.
      * apply IH in Hr. destruct (said_short before k) as [E|(y & E)]; rewrite E in *; [now subst|].
        exfalso. apply (Hn y). apply R. now left.
    + intros ->. destruct (said_short before k) as [E|(y & E)]; rewrite E in *; cbn [app].
      * apply rs_silent; [|now apply IH]. intros x Hx. now apply R in Hx.
      * apply rs_said; [apply R; now left|now apply IH].
Qed.
End WithUnicode.
