(** * DemoProps: the theorems about the graphical policy tester (C97 - C100) *)

From Coq Require Import NArith ZArith List Bool String Lia Permutation.
From Verif Require Import PyBase PyNum Lexer LexSpec LexProofs LexProofs2 LexProps Values Ast Parser Grammar
  ParseProofs ParseProofs2 Syntax PrintProofs ParseProps AbsProofs Symbols Interp EvalSpec EvalProofs EvalProofs2 EvalProps
  SymbolProps TypeCheck TypeSpec TypeProofs TypeProps AttCert AAuth AAuthSpec AAuthProofs Demo DemoProofs.
Import ListNotations.
Open Scope Z_scope.

Section Demo.
Variable U : unicode.
Variable P : pytext.

(** ** What the program shows at any time (specification) *)

Definition buttons (f : frame) : bool * bool * bool * bool * bool :=
  (f_tok_on f, f_parse_on f, f_check_on f, f_opt_on f, f_int_on f).
Definition nothing_kept (f : frame) : Prop :=
  f_tokens f = None /\ f_ast f = None /\ f_checked f = None /\
  f_token_rows f = [] /\ f_node_rows f = [] /\ f_symbol_rows f = [].
(** The tokens kept and listed are those of the text in the box. *)
Definition tokens_of_box (f : frame) (ts : list token) : Prop :=
  lex_text U (f_text f) = Ok ts /\ f_tokens f = Some ts /\
  f_token_rows f = map (fun t => (t_type t, t_val t, t_pos t)) ts.
(** The tree kept is what parsing the text in the box gives. *)
Definition tree_of_box (f : frame) (a : ast) : Prop :=
  f_ast f = Some a /\ exists last n, parse_text U (f_text f) last = Ok (a, n).
(** The table kept is what a new checker has after checking the tree, with that verdict. *)
Definition checked_as (f : frame) (a : ast) (ok : tc_result -> Prop) : Prop :=
  exists c l, check U (checker_new a) 4 = (c, Returned l) /\ ok (get_result c) /\
    f_checked f = Some (ts_heap (tc_state c), ts_table (tc_state c)).

Inductive phase (f : frame) : Prop :=
| Editing : f_box f = true -> buttons f = (true, false, false, false, false) -> nothing_kept f -> phase f
| NotTokenized e : f_box f = false -> buttons f = (true, false, false, false, false) -> nothing_kept f ->
    lex_text U (f_text f) = Err e -> phase f
| Tokenized ts : f_box f = false -> buttons f = (false, true, false, false, false) -> tokens_of_box f ts ->
    f_ast f = None -> f_checked f = None -> f_node_rows f = [] -> f_symbol_rows f = [] -> phase f
| Parsed ts a h : f_box f = false -> buttons f = (false, false, true, false, false) -> tokens_of_box f ts ->
    tree_of_box f a -> f_node_rows f = [node_rows h a] ->
    (f_checked f = None /\ f_symbol_rows f = [] \/ checked_as f a (fun r => r = ResError)) -> phase f
| Checked ts a : f_box f = false -> buttons f = (false, false, false, false, true) -> tokens_of_box f ts ->
    tree_of_box f a -> checked_as f a (fun r => r = ResPass \/ r = ResWarn) -> phase f.

(** A frame opened on a table of categorised, typed symbols and then used. *)
Definition reachable (f : frame) : Prop :=
  exists h tb last f0 l, table_ok U h tb /\ frame_new h tb last = Ok f0 /\ f = use U P f0 l.

Hypothesis uok : unicode_ok U.

Definition inv (f : frame) : Prop := phase f /\ panel f /\ table_ok U (f_heap f) (f_table f).

Lemma token_rows_eq ts : token_rows ts = map (fun t => (t_type t, t_val t, t_pos t)) ts.
Proof. reflexivity. Qed.

Lemma parse_of_box f ts last a n : lex_text U (f_text f) = Ok ts -> parse U ts last = Ok (a, n) ->
  parse_text U (f_text f) last = Ok (a, n).
Proof. intros H1 H2. unfold parse_text. rewrite H1. exact H2. Qed.

Lemma tree_checker a text last n : parse_text U text last = Ok (a, n) ->
  checker_ok U (tc_state (fst (check U (checker_new a) 4))).
Proof.
  intros H. pose proof (parsed_typed _ _ _ _ _ uok H) as Ht. destruct (parse_text_abs _ _ _ _ _ uok H) as [p Ha].
  pose proof (ok_scan U a (TS [] [] []) ) as K. unfold check. cbn [checker_new tc_state tc_ast].
  destruct (scan_tree U (TS [] [] []) a) as [st [e|]]; cbn [fst tc_state] in *; apply K;
    try (eapply parsed_ops; eauto); (split; [split; [constructor|intros ? ? []]|split; intros ? ? []]).
Qed.

Ltac buttons_of H := unfold buttons in H; injection H as ?B1 ?B2 ?B3 ?B4 ?B5.

Lemma step_phase f e : inv f -> phase (fst (step U P f e)).
Proof.
  intros (Hp & Hpan & Htab). destruct e as [| | | | | |text|row text]; cbn [step].
  - destruct (f_tok_on f) eqn:Hon; [|exact Hp].
    unfold command_tokenize. destruct (lex_text U (f_text f)) as [ts|e] eqn:E.
    + apply (Tokenized _ ts); auto. unfold tokens_of_box. auto.
    + unfold caught. destruct (is_hgpl e); cbn [fst]; (apply (NotTokenized _ e); [reflexivity|unfold buttons; cbn; now rewrite Hon| |exact E]);
        unfold nothing_kept; cbn; auto 10.
  - destruct (f_parse_on f) eqn:Hon; [|exact Hp].
    destruct Hp as [? B|? ? B|ts Hb B Ht ? ? ? ?|? ? ? ? B|? ? ? B]; try (buttons_of B; congruence).
    unfold command_parse. pose proof Ht as (Hl & Hk & Hr). rewrite Hk. buttons_of B.
    destruct (parse U ts (f_last_id f)) as [[a n]|e] eqn:E.
    + apply (Parsed _ ts a (f_heap f)); cbn; auto.
      * unfold tokens_of_box. cbn. auto.
      * split; auto. exists (f_last_id f), n. cbn. now apply (parse_of_box _ ts).
    + unfold caught. destruct (is_hgpl e); cbn [fst]; apply (Tokenized _ ts); cbn; auto;
        try (unfold buttons; cbn; now rewrite Hon); unfold tokens_of_box; cbn; auto.
  - destruct (f_check_on f) eqn:Hon; [|exact Hp].
    destruct Hp as [? B|? ? B|? ? B|ts a h Hb B Ht Ha Hn Hc|? ? ? B]; try (buttons_of B; congruence).
    unfold command_type_check. pose proof Ha as (Hast & last & n & Hpar). rewrite Hast.
    pose proof (tree_checker a _ _ _ Hpar) as (_ & Nt & _).
    destruct (check U (checker_new a) 4) as [c r] eqn:Ec. cbn [fst] in Nt.
    assert (Stay : forall f', f_text f' = f_text f -> f_box f' = false -> f_tokens f' = f_tokens f ->
      f_token_rows f' = f_token_rows f -> f_ast f' = f_ast f -> f_node_rows f' = f_node_rows f ->
      buttons f' = (false, false, true, false, false) ->
      (f_checked f' = None /\ f_symbol_rows f' = [] \/ checked_as f' a (fun r => r = ResError)) -> phase f').
    { intros f' T Bx Tk Tr As Nr Bt Ck. apply (Parsed _ ts a h); auto; try congruence.
      - unfold tokens_of_box in *. rewrite T, Tk, Tr. exact Ht.
      - unfold tree_of_box in *. rewrite T, As. exact Ha. }
    destruct r as [l|i|e].
    2:{ apply Stay; cbn; auto. unfold buttons. cbn. now rewrite Hon. }
    2:{ unfold caught. destruct (is_hgpl e); apply Stay; cbn; auto; unfold buttons; cbn; now rewrite Hon. }
    rewrite symbol_rows_ok by exact Nt.
    destruct (get_result c) eqn:Er; cbn [fst].
    + exfalso. unfold get_result in Er.
      assert (tc_checked c = true) as Hc'.
      { unfold check in Ec. destruct (scan_tree _ _ _) as [st [x|]]; [discriminate|]. now injection Ec as <- _. }
      rewrite Hc' in Er. cbn [negb] in Er. destruct (ts_issues (tc_state c)); [discriminate|].
      match type of Er with (if ?b then _ else _) = _ => destruct b end; discriminate.
    + apply (Checked _ ts a); [exact Hb|reflexivity|exact Ht|split; [reflexivity|eauto]|exists c, l; cbn; auto].
    + apply (Checked _ ts a); [exact Hb|reflexivity|exact Ht|split; [reflexivity|eauto]|exists c, l; cbn; auto].
    + apply Stay; auto; [unfold buttons; cbn; now rewrite Hon|right]. exists c, l. auto.
  - destruct (f_opt_on f) eqn:Hon; [|exact Hp].
    destruct Hp as [? B|? ? B|? ? B|? ? ? ? B|? ? ? B]; buttons_of B; congruence.
  - destruct (f_int_on f) eqn:Hon; [|exact Hp].
    destruct Hp as [? B|? ? B|? ? B|? ? ? ? B|ts a Hb B Ht Ha Hc]; try (buttons_of B; congruence).
    unfold command_interpret. pose proof Ha as (Hast & last & n & Hpar).
    pose proof Hc as (c & l & Ec & Hok & Hk). rewrite Hast, Hk.
    assert (Stay : forall f', f_text f' = f_text f -> f_box f' = false -> f_tokens f' = f_tokens f ->
      f_token_rows f' = f_token_rows f -> f_ast f' = f_ast f -> f_checked f' = f_checked f ->
      buttons f' = (false, false, false, false, true) -> phase f').
    { intros f' T Bx Tk Tr As Ck Bt. apply (Checked _ ts a); auto.
      - unfold tokens_of_box in *. rewrite T, Tk, Tr. exact Ht.
      - unfold tree_of_box in *. rewrite T, As. exact Ha.
      - exists c, l. rewrite Ck. auto. }
    destruct (evaluate _ _ _ _ _) as [it [v|e]];
      [destruct (copy_values _ _ _ _ _ _) as [ch'|e]; [destruct (result_name _ _) as [nm|e]; [destruct (symbol_rows _ _) as [rows|e]|]|
        destruct (is_hgpl e)]|destruct (is_hgpl e)];
    apply Stay; cbn; auto; unfold buttons; cbn; now rewrite Hon.
  - apply Editing; cbn; auto. unfold nothing_kept. cbn. auto 10.
  - destruct (f_box f) eqn:Hon; [|exact Hp].
    destruct Hp as [Hb B Hn|? ? ?|? ? ?|? ? ? ?|? ? ?]; try congruence.
    apply Editing; cbn; auto.
  - unfold update_att. destruct (nth_error _ _) as [r|]; [|exact Hp].
    destruct (new_value _ _ _ _) as [v|]; [|exact Hp].
    assert (Keep : forall h rows, phase (set_atts f h rows)).
    { intros h rows. destruct Hp as [Hb B Hn|e Hb B Hn He|ts Hb B Ht H1 H2 H3 H4|ts a h0 Hb B Ht Ha Hn Hc|ts a Hb B Ht Ha Hc];
      [apply Editing|apply (NotTokenized _ e)|apply (Tokenized _ ts)|apply (Parsed _ ts a h0)|apply (Checked _ ts a)]; auto. }
    destruct (st_set_value _ _ _ _ _); apply Keep.
Qed.

Lemma step_table f e : inv f -> panel (fst (step U P f e)) /\
  table_ok U (f_heap (fst (step U P f e))) (f_table (fst (step U P f e))).
Proof.
  intros (Hp & Hpan & Htab).
  assert (Same : forall f', f_heap f' = f_heap f -> f_table f' = f_table f -> f_att_rows f' = f_att_rows f ->
    panel f' /\ table_ok U (f_heap f') (f_table f')).
  { intros f' E1 E2 E3. unfold panel. rewrite E1, E2, E3. auto. }
  destruct e as [| | | | | |text|row text]; cbn [step]; try (apply update_keeps; auto; fail).
  - destruct (f_tok_on f); [|auto]. unfold command_tokenize, caught.
    destruct (lex_text _ _) as [?|e]; [|destruct (is_hgpl e)]; apply Same; reflexivity.
  - destruct (f_parse_on f); [|auto]. unfold command_parse, caught.
    match goal with |- context[match ?m with Ok _ => _ | Err _ => _ end] => destruct m as [[? ?]|e] end;
      [|destruct (is_hgpl e)]; apply Same; reflexivity.
  - destruct (f_check_on f); [|auto]. unfold command_type_check, caught.
    destruct (f_ast f); [|apply Same; reflexivity]. destruct (check _ _ _) as [c [l|i|e]];
      [destruct (symbol_rows _ _)| |destruct (is_hgpl e)]; apply Same; reflexivity.
  - destruct (f_opt_on f); [|auto]. apply Same; reflexivity.
  - destruct (f_int_on f); [|auto]. unfold command_interpret.
    destruct (f_ast f); [|apply Same; reflexivity]. destruct (f_checked f) as [[ch ct]|]; [|apply Same; reflexivity].
    destruct (evaluate _ _ _ _ _) as [it [v|e]];
      [destruct (copy_values _ _ _ _ _ _) as [ch'|e]; [destruct (result_name _ _) as [nm|e]; [destruct (symbol_rows _ _) as [rows|e]|]|
        destruct (is_hgpl e)]|destruct (is_hgpl e)];
    apply Same; reflexivity.
  - apply Same; reflexivity.
  - destruct (f_box f); [|auto]. apply Same; reflexivity.
Qed.

Lemma start_inv h tb last f : table_ok U h tb -> frame_new h tb last = Ok f -> inv f.
Proof.
  intros Ht H. unfold frame_new in H. destruct (att_rows h tb) as [rows|] eqn:E; [|discriminate]. cbn [bind] in H.
  injection H as <-. apply att_rows_ok in E as [_ ->]. split; [|split].
  - apply Editing; cbn; auto. unfold nothing_kept. cbn. auto 10.
  - unfold panel. cbn [f_att_rows f_heap f_table]. rewrite map_map. apply map_ext. intros [k l]. cbn [snd].
    unfold shown_row, symbol_row_of. cbn. now rewrite (held_get _ _ (to_held _ _ _ Ht)).
  - exact Ht.
Qed.

Lemma use_inv l : forall f, inv f -> inv (use U P f l).
Proof.
  induction l as [|e l IH]; intros f Hi; auto. cbn. apply IH. split; [now apply step_phase|now apply step_table].
Qed.
Lemma reachable_inv f : reachable f -> inv f.
Proof. intros (h & tb & last & f0 & l & Ht & Hn & ->). apply use_inv. eapply start_inv; eauto. Qed.

(** ** C97 *)

(** Whatever the user does, in whatever order, what is kept and shown belongs to the text in
    the box: *)
Theorem C97_phases (f : frame) : reachable f -> phase f.
Proof. intros H. now apply reachable_inv. Qed.

(** one of the buttons Tokenize, Parse, Type Check and Interpret is enabled at a time and
    Optimize never, *)
Theorem C97_one_button (f : frame) : reachable f ->
  List.length (filter (fun on => on) [f_tok_on f; f_parse_on f; f_check_on f; f_int_on f]) = 1%nat /\
  f_opt_on f = false.
Proof.
  intros H. apply reachable_inv in H as [Hp _].
  destruct Hp as [? B|? ? B|? ? B|? ? ? ? B|? ? ? B]; buttons_of B; rewrite B1, B2, B3, B4, B5; cbn; auto.
Qed.

(** and the text cannot be changed between Tokenize and Reset. *)
Theorem C97_locked (f : frame) (l : list event) : f_box f = false -> ~ In PressReset l ->
  f_text (use U P f l) = f_text f /\ f_box (use U P f l) = false.
Proof.
  revert f. induction l as [|e l IH]; intros f Hb Hn; auto.
  change (use U P f (e :: l)) with (use U P (fst (step U P f e)) l).
  assert (S : f_text (fst (step U P f e)) = f_text f /\ f_box (fst (step U P f e)) = false).
  { destruct e; cbn [step]; try (exfalso; apply Hn; now left).
    - destruct (f_tok_on f); auto. unfold command_tokenize, caught.
      destruct (lex_text _ _) as [?|x]; [|destruct (is_hgpl x)]; auto.
    - destruct (f_parse_on f); auto. unfold command_parse, caught.
      match goal with |- context[match ?m with Ok _ => _ | Err _ => _ end] => destruct m as [[? ?]|x] end;
        [|destruct (is_hgpl x)]; auto.
    - destruct (f_check_on f); auto. unfold command_type_check, caught.
      destruct (f_ast f); auto. destruct (check _ _ _) as [c [?|?|x]]; [destruct (symbol_rows _ _)| |destruct (is_hgpl x)]; auto.
    - destruct (f_opt_on f); auto.
    - destruct (f_int_on f); auto. unfold command_interpret.
      destruct (f_ast f); auto. destruct (f_checked f) as [[ch ct]|]; auto.
      destruct (evaluate _ _ _ _ _) as [it [v|x]];
        [destruct (copy_values _ _ _ _ _ _) as [ch'|x]; [destruct (result_name _ _) as [nm|x]; [destruct (symbol_rows _ _) as [rows|x]|]|
          destruct (is_hgpl x)]|destruct (is_hgpl x)]; auto.
    - rewrite Hb. auto.
    - unfold update_att. destruct (nth_error _ _); auto. destruct (new_value _ _ _ _); auto. destruct (st_set_value _ _ _ _ _); auto. }
  destruct S as [S1 S2]. destruct (IH _ S2 (fun H => Hn (or_intror H))) as [I1 I2]. split; [congruence|auto].
Qed.

(** The policy a text is read as, and the texts whose attributes have steady names. *)
Definition reads_as (text : str) (p : pol) : Prop :=
  exists last a n, parse_text U text last = Ok (a, n) /\ abs (erase a) = Some p.
Definition steady_text (text : str) : Prop := forall p, reads_as text p -> steady U (attributes p).
Theorem C97_ascii_text text : is_ascii text = true -> steady_text text.
Proof.
  intros H p (last & a & n & Hp & Ha). destruct (C17_ascii_text U text last n a uok Hp H) as (q & Hq & Hn & _).
  rewrite Ha in Hq. injection Hq as <-. now apply C14_ascii_steady.
Qed.

(** Type Check, for a text with steady names (in particular one in ASCII), reports exactly the ill typed and the doubtful
    comparisons of the policy in the box, lets Interpret be pressed exactly when none is ill
    typed, and lists every attribute once, with the type its comparisons tell and no value. *)
Definition error_of (k : comparison) : issue :=
  Issue 3 (class_check (k_op k)) (t_pos (k_tok k)) (k_tok k) (k_ltok k) (k_rtok k).
Definition type_errors (a : ast) : list issue :=
  map error_of (filter (fun k => ill_typed (k_op k) (k_left k) (k_right k)) (comparisons (erase a))).
Definition type_warnings (a : ast) : list issue := filter (fun i => is_type i =? 2) (issues U (comparisons (erase a))).
Definition verdict (a : ast) : tc_result :=
  match type_errors a, type_warnings a with _ :: _, _ => ResError | [], _ :: _ => ResWarn | [], [] => ResPass end.

Definition unless_empty {A} (l : list A) (x : line) : list line := match l with [] => [] | _ => [x] end.

Lemma inferred_type text last a n p c m : parse_text U text last = Ok (a, n) -> abs (erase a) = Some p -> steady U (attributes p) ->
  In (c, m) (attributes p) -> let st := tc_state (fst (check U (checker_new a) 4)) in
  st_lookup_type U (ts_heap st) (ts_table st) (cat_word c ++ m) = Some (inferred U (pol_comparisons p) (c, m)).
Proof.
  intros H Ha Hn Hi st. pose proof (C15_types U text last n a p 4 [] c m uok H Ha Hn Hi) as T.
  cbn [checks] in T. subst st. destruct (check U (checker_new a) 4) as [c0 r]. cbn [fst] in *. destruct T as [T1 T2].
  assert (D : Forall (fun x => evidence U (c, m) x = None) (pol_comparisons p) /\ inferred U (pol_comparisons p) (c, m) = ST_UNKNOWN \/
    exists before k after t, pol_comparisons p = before ++ k :: after /\ Forall (fun x => evidence U (c, m) x = None) before /\
      evidence U (c, m) k = Some t /\ inferred U (pol_comparisons p) (c, m) = t).
  { clear. induction (pol_comparisons p) as [|k ks IH]; [left; auto|]. cbn [inferred].
    destruct (evidence U (c, m) k) as [t|] eqn:E; [right; exists [], k, ks, t; auto|].
    destruct IH as [[F I]|(b & k' & r & t & E' & F & Ek & I)]; [left; auto|right].
    exists (k :: b), k', r, t. rewrite E'. repeat split; auto. rewrite <- E'. auto. }
  destruct D as [[F ->]|(b & k & r' & t & E & F & Ek & ->)]; eauto.
Qed.

Theorem C97_type_check (f : frame) : reachable f -> f_check_on f = true -> steady_text (f_text f) ->
  exists a p, tree_of_box f a /\ abs (erase a) = Some p /\
    let f' := fst (step U P f PressTypeCheck) in
    snd (step U P f PressTypeCheck) = None /\
    f_console f' = f_console f ++ [LChecking]
      ++ unless_empty (type_errors a) (LCheckErrors (type_errors a))
      ++ unless_empty (type_warnings a) (LCheckWarnings (type_warnings a))
      ++ [LChecked (verdict a)] /\
    (f_int_on f' = true <-> forall o x y, In (o, x, y) (pol_comparisons p) -> ill_typed o x y = false) /\
    map (fun r => fst (fst r)) (f_symbol_rows f') = firsts [] (map (att_key U) (attributes p)) /\
    (forall c m, In (c, m) (attributes p) ->
       In (att_key U (c, m), inferred U (pol_comparisons p) (c, m), VNone) (f_symbol_rows f')).
Proof.
  intros Hr Hon Has. apply reachable_inv in Hr as (Hp & _ & _).
  destruct Hp as [? B|? ? B|? ? B|ts a h Hb B Ht Ha Hnd Hc|? ? ? B]; try (buttons_of B; congruence).
  destruct (proj2 Ha) as (last & n & Hpar).
  destruct (parse_text_abs _ _ _ _ _ uok Hpar) as [p Habs].
  assert (Hn : steady U (attributes p)) by (apply Has; exists last, a, n; auto).
  pose proof (C17_default U _ _ _ _ p 4 uok Hpar Habs Hn ltac:(lia)) as Hret.
  exists a, p. split; auto. split; auto. cbv zeta. cbn [step]. rewrite Hon. unfold command_type_check.
  rewrite (proj1 Ha).
  pose proof (tree_checker a _ _ _ Hpar) as (Gd & Nt & Nv).
  pose proof (C16_errors U _ _ _ _ p 4 uok Hpar Habs Hn) as Qe.
  pose proof (C16_issues U _ _ _ _ p [4] uok Hpar Habs Hn) as Qi.
  pose proof (C16_result U _ _ _ _ p 4 uok Hpar Habs Hn) as [_ Qr].
  pose proof (C14_names U _ _ _ _ p 4 [] uok Hpar Habs Hn) as Nm.
  pose proof (C14_symbols U _ _ _ _ p 4 [] uok Hpar Habs Hn) as [Sy _].
  assert (Ty : forall c m, In (c, m) (attributes p) -> _) by (intros c m; exact (inferred_type _ _ _ _ p c m Hpar Habs Hn)).
  cbn [checks] in *. cbv zeta in *. destruct (check U (checker_new a) 4) as [c r]. cbn [fst] in *. subst r.
  cbn [List.length times app] in Qi.
  assert (Ew : get_warnings c = type_warnings a).
  { unfold get_warnings, type_warnings. unfold get_issues in Qi. now rewrite Qi. }
  fold (type_errors a) in Qe. change (map _ (filter _ _)) with (type_errors a) in Qe.
  rewrite symbol_rows_ok by exact Nt.
  assert (Ev : get_result c = verdict a).
  { destruct Qr as (R1 & R2 & R3). unfold verdict. destruct (type_errors a) as [|e es] eqn:Ee.
    - destruct (type_warnings a) eqn:Et.
      + apply R2. rewrite Qi. pose proof (issue_severity U (comparisons (erase a)) []) as Sv.
        change (issues_after U [] (comparisons (erase a))) with (issues U (comparisons (erase a))) in Sv.
        destruct (issues U (comparisons (erase a))) as [|i is] eqn:Ei; auto. exfalso.
        unfold get_errors in Qe. unfold type_warnings in Et. unfold get_issues in Qi. rewrite Qi in Qe. rewrite Ei in Et.
        cbn in Qe, Et. destruct (Sv i (or_introl eq_refl)) as [E|E]; rewrite E in *; discriminate.
      + apply R3. rewrite Qe, Ew. split; [reflexivity|discriminate].
    - apply R1. assert (Hi : In e (type_errors a)) by (rewrite Ee; now left).
      unfold type_errors in Hi. apply in_map_iff in Hi as (k & _ & Hk). apply filter_In in Hk as [Hk Hill].
      exists (k_op k), (k_left k), (k_right k). split; auto. rewrite <- (comparisons_abs _ p Habs).
      apply in_map_iff. exists k. auto. }
  assert (Rows : map (fun e => sy_name (hget (ts_heap (tc_state c)) (snd e))) (ts_table (tc_state c)) = map fst (ts_table (tc_state c))).
  { apply map_ext_in. intros [k l] Hi. cbn [fst snd]. pose proof (in_map fst _ _ Hi) as Hk. cbn [fst] in Hk.
    rewrite Nm in Hk.
    assert (Hf : forall seen l x, In x (firsts seen l) -> In x l).
    { clear. intros seen l. revert seen. induction l as [|y l IH]; intros seen x Hx; cbn in Hx; auto.
      destruct (mem y seen); [right; eauto|]. destruct Hx as [<-|Hx]; [now left|right; eauto]. }
    apply Hf in Hk. apply in_map_iff in Hk as ([d m] & <- & Hd). destruct (Sy d m Hd) as (l' & L & N1 & _).
    unfold st_lookup in L. pose proof L as L'. apply assoc_in in L'. destruct (proj2 Gd _ _ L') as [_ K'].
    destruct (proj2 Gd _ _ Hi) as [_ K]. 
    assert (l' = l) as ->; [|exact N1].
    rewrite K' in L. rewrite N1 in L.
    assert (assoc (py_lower U (sy_name (hget (ts_heap (tc_state c)) l))) (ts_table (tc_state c)) = Some l) as Z.
    { rewrite <- K. apply in_assoc; auto. apply Gd. }
    rewrite <- K in Z. rewrite N1 in K'.
    assert (py_lower U (att_key U (d, m)) = att_key U (d, m)) as I.
    { apply key_lower. exact (Hn _ Hd). }
    rewrite I in L. congruence. }
  split; [destruct (verdict a) eqn:Ex; rewrite Ev; reflexivity|]. 
  match goal with |- f_console (fst (?F, _)) = _ /\ _ => set (f' := F) end. cbn [fst].
  assert (Ef : f_console f' = f_console f ++ [LChecking]
      ++ unless_empty (type_errors a) (LCheckErrors (type_errors a))
      ++ unless_empty (type_warnings a) (LCheckWarnings (type_warnings a))
      ++ [LChecked (verdict a)]).
  { subst f'. cbn [f_console]. rewrite Qe, Ew, Ev, <- !app_assoc. unfold if_any, unless_empty. cbn [app].
    destruct (type_errors a), (type_warnings a); reflexivity. }
  split; [exact Ef|]. split; [|split].
  - subst f'. cbn [f_int_on]. rewrite Ev. destruct Qr as (R1 & _). rewrite Ev in R1. split.
    + intros Hv o x y Hi. destruct (ill_typed o x y) eqn:Ei; auto. exfalso.
      rewrite (proj2 R1) in Hv; [discriminate|eauto].
    + intros Hv. destruct (verdict a) eqn:Ex; auto.
      * unfold verdict in Ex. destruct (type_errors a), (type_warnings a); discriminate.
      * destruct (proj1 R1 eq_refl) as (o & x & y & Hi & Hill). rewrite (Hv _ _ _ Hi) in Hill. discriminate.
  - subst f'. cbn [f_symbol_rows]. rewrite map_map. cbn [fst]. rewrite Rows. exact Nm.
  - intros d m Hi. subst f'. cbn [f_symbol_rows]. destruct (Sy d m Hi) as (l & L & N1 & _ & _ & V1).
    pose proof (Ty d m Hi) as T. unfold st_lookup_type in T. rewrite L in T. cbn in T. injection T as T.
    unfold st_lookup in L. apply assoc_in in L. apply in_map_iff. eexists. split; [|exact L]. cbn [snd]. now rewrite N1, T, V1.
Qed.

(** Starting over with a text with steady names and pressing the buttons in order makes Interpret
    available exactly when the text is a policy without ill typed comparisons. *)
Lemma reachable_use f l : reachable f -> reachable (use U P f l).
Proof.
  intros (h & tb & last & f0 & l0 & Ht & Hn & ->). exists h, tb, last, f0, (l0 ++ l). split; [|split]; auto.
  unfold use. now rewrite fold_left_app.
Qed.

Theorem C97_run (f : frame) (text : str) : reachable f -> steady_text text ->
  let f' := use U P f [PressReset; EnterPolicy text; PressTokenize; PressParse; PressTypeCheck] in
  f_text f' = text /\
  (f_int_on f' = true <->
   exists p, reads_as text p /\ forall o x y, In (o, x, y) (pol_comparisons p) -> ill_typed o x y = false).
Proof.
  intros Hr Hx f'.
  pose (f1 := use U P f [PressReset; EnterPolicy text; PressTokenize; PressParse]).
  assert (E' : f' = fst (step U P f1 PressTypeCheck)) by reflexivity.
  assert (R1 : reachable f1) by now apply reachable_use.
  assert (T : f_text f' = text).
  { unfold f'. change (f_text (use U P (use U P f [PressReset; EnterPolicy text; PressTokenize]) [PressParse; PressTypeCheck]) = text).
    destruct (C97_locked (use U P f [PressReset; EnterPolicy text; PressTokenize]) [PressParse; PressTypeCheck]) as [-> _].
    - cbn. unfold command_tokenize, caught. cbn. destruct (lex_text U text) as [?|e]; [|destruct (is_hgpl e)]; reflexivity.
    - intros [H|[H|[]]]; discriminate.
    - cbn. unfold command_tokenize, caught. cbn. destruct (lex_text U text) as [?|e]; [|destruct (is_hgpl e)]; reflexivity. }
  split; auto.
  assert (D : (exists a n, parse_text U text (f_last_id f) = Ok (a, n) /\ f_check_on f1 = true /\ f_text f1 = text /\ f_ast f1 = Some a) \/
    (forall a n, parse_text U text (f_last_id f) <> Ok (a, n)) /\ f_check_on f1 = false /\ f_int_on f1 = false).
  { unfold f1, parse_text. cbn. unfold command_tokenize. cbn.
    destruct (lex_text U text) as [ts|e] eqn:El; cbn [fst].
    - unfold command_parse. cbn. destruct (parse U ts (f_last_id f)) as [[a n]|e] eqn:Ep; [left; exists a, n; cbn; auto|right].
      split; [discriminate|]. unfold caught. destruct (is_hgpl e); cbn; auto.
    - right. split; [discriminate|]. unfold caught. destruct (is_hgpl e); cbn; auto. }
  assert (Any : forall last a n, parse_text U text last = Ok (a, n) -> exists a' n', parse_text U text (f_last_id f) = Ok (a', n') /\ erase a' = erase a).
  { intros last a n H. unfold parse_text in H. apply bind_ok in H as (ts & Hl & H). apply C08_parser_sound in H.
    eapply C09_text_complete; eauto. }
  destruct D as [(a & n & Hp & Hon & Tx & Hast)|(Hno & Hon & Hio)].
  - destruct (C97_type_check f1 R1 Hon) as (a' & p & Ha & Habs & _ & _ & Hi & _); [now rewrite Tx|].
    rewrite <- E' in Hi. rewrite Hi. destruct Ha as [Ha _]. rewrite Hast in Ha. injection Ha as <-. split.
    + intros H. exists p. split; auto. exists (f_last_id f), a, n. auto.
    + intros (q & (last & a' & n' & Hp' & Hq) & H). destruct (Any _ _ _ Hp') as (a2 & n2 & Hp2 & He).
      rewrite Hp in Hp2. injection Hp2 as <- <-. rewrite He in Habs. rewrite Hq in Habs. injection Habs as <-. exact H.
  - rewrite E'. cbn [step]. rewrite Hon. cbn [fst]. rewrite Hio. split; [discriminate|].
    intros (q & (last & a' & n' & Hp' & Hq) & H). destruct (Any _ _ _ Hp') as (a2 & n2 & Hp2 & He). exfalso. eapply Hno; eauto.
Qed.

(** ** C98 *)

Definition tri_name (t : tri) : str := match t with TRUE => lit "TRUE" | FALSE => lit "FALSE" | UNDEF => lit "UNDEF" end.
(** Everything but console, tree and table of symbols is as before. *)
Definition same_but_results (f f' : frame) : Prop :=
  f_text f' = f_text f /\ f_box f' = f_box f /\ f_heap f' = f_heap f /\ f_table f' = f_table f /\
  f_tokens f' = f_tokens f /\ f_ast f' = f_ast f /\ f_checked f' = f_checked f /\ buttons f' = buttons f /\
  f_token_rows f' = f_token_rows f /\ f_att_rows f' = f_att_rows f /\ f_last_id f' = f_last_id f.

(** A tree on the screen for the tree of a policy: the same nodes, with their token, and for
    every subpolicy (other than an attribute by itself) its value. *)
Inductive pictured (E : env) : ptree -> node_row -> Prop :=
| pic_node c t ks r rows : Forall2 (pictured E) ks rows ->
    (forall q, abs (PT c t ks) = Some q -> (forall k n, q <> PAtt k n) -> r = ShownValue (VTri (den E q))) ->
    pictured E (PT c t ks) (NodeRow (t_type t) (t_val t) r rows).
Lemma picture E h a :
  (forall s q, sub s a -> abs (erase s) = Some q -> (forall c n, q <> PAtt c n) -> n_result s = Some (RV (VTri (den E q)))) ->
  pictured E (erase a) (node_rows h a).
Proof.
  induction a as [c t i r ks IH] using ast_ind'. intros H. cbn [erase node_rows]. constructor.
  - assert (K : forall k, In k ks -> pictured E (erase k) (node_rows h k)).
    { intros k Hk. rewrite Forall_forall in IH. apply IH; auto. intros s q Hs. apply H. eapply sub_kid; eauto. }
    clear - K. induction ks as [|k ks IH]; cbn; constructor; [apply K; now left|apply IH; intros k' Hk; apply K; now right].
  - intros q Hq Hn. specialize (H _ q (sub_here _) Hq Hn). cbn [n_result] in H. now rewrite H.
Qed.

(** Interpret says what the policy in the box means for the attributes in the panel: the
    truth value, or for a policy that is a single attribute which is not boolean the name of
    that attribute; it says so with the warnings of the policy, and shows in the table of
    symbols type and value of every attribute that is in the panel.  A policy that cannot be
    evaluated gives an error line, or an exception nobody catches when it is a TypeError.  Nothing
    else changes. *)
Theorem C98_interpret (f : frame) : reachable f -> f_int_on f = true ->
  exists a p ch ct, tree_of_box f a /\ abs (erase a) = Some p /\ f_checked f = Some (ch, ct) /\
    let E := env_of U (f_heap f) (Some (f_table f)) in
    let f' := fst (step U P f PressInterpret) in
    let x := snd (step U P f PressInterpret) in
    same_but_results f f' /\
    if root_faults E p then
      (exists e, ierr (erase a) e /\ f_node_rows f' = f_node_rows f /\ f_symbol_rows f' = f_symbol_rows f /\
         (e = EType /\ x = Some EType /\ f_console f' = f_console f ++ [LInterpreting] \/
          e <> EType /\ x = None /\ f_console f' = f_console f ++ [LInterpreting; LError e]))
    else x = None /\
      (exists ws name, map w_kind ws = warns E p /\
         f_console f' = f_console f ++ [LInterpreting] ++ unless_empty ws (LWarnings ws) ++ [LResult name] /\
         if faults E p
         then exists c n l, p = PAtt c n /\ st_lookup U (f_table f) (cat_prefix c ++ n) = Some l /\ name = sy_name (hget (f_heap f) l)
         else name = tri_name (den E p)) /\
      (exists row, f_node_rows f' = [row] /\ pictured E (erase a) row) /\
      f_symbol_rows f' =
        map (fun e => let s := hget ch (snd e) in
               match st_lookup U (f_table f) (sy_name s) with
               | Some l => (sy_name s, sy_type (hget (f_heap f) l), sy_value (hget (f_heap f) l))
               | None => (sy_name s, sy_type s, sy_value s)
               end) ct.
Proof.
  intros Hr Hon. apply reachable_inv in Hr as (Hp & _ & Htab).
  destruct Hp as [? B|? ? B|? ? B|? ? ? ? B|ts a Hb B Ht Ha Hc]; try (buttons_of B; congruence).
  destruct (proj2 Ha) as (last & n & Hpar). destruct Hc as (c & l & Ec & _ & Hk).
  pose proof (tree_checker a _ _ _ Hpar) as (Gd & Nt & _). rewrite Ec in Gd, Nt. cbn [fst] in Gd, Nt.
  destruct (first_eval U (f_heap f) _ _ _ _ (Some (f_table f)) (Some 3) uok (to_values _ _ _ Htab) Hpar) as (p & Habs & S).
  exists a, p, (ts_heap (tc_state c)), (ts_table (tc_state c)). split; auto. split; auto. split; auto.
  cbv zeta. cbn [step]. rewrite Hon. unfold command_interpret. rewrite (proj1 Ha), Hk.
  set (ch := ts_heap (tc_state c)) in *. set (ct := ts_table (tc_state c)) in *.
  assert (Bt : buttons f = (false, false, false, false, f_int_on f)) by (rewrite B, Hon; reflexivity).
  assert (Same : forall lines nodes syms,
    same_but_results f (Frame (f_text f) (f_box f) (f_heap f) (f_table f) (f_tokens f) (Some a) (Some (ch, ct))
          false false false false (f_int_on f) (f_token_rows f) nodes syms (f_att_rows f) lines (f_last_id f))).
  { intros lines nodes syms. unfold same_but_results. cbn. rewrite (proj1 Ha), Hk, Bt. unfold buttons. cbn. repeat split. }
  unfold eval_spec in S. destruct (evaluate U (f_heap f) (interp_new a) (Some (f_table f)) (Some 3)) as [it r] eqn:Ev.
  cbn [fst snd] in S. destruct (root_faults (env_of U (f_heap f) (Some (f_table f))) p).
  - destruct S as (e & -> & He). destruct (is_hgpl e) eqn:Eh; cbn [fst snd]; (split; [apply Same|]); exists e; (split; [exact He|]);
      (split; [reflexivity|]); (split; [reflexivity|]).
    + right. split; [intros ->; discriminate|]. split; reflexivity.
    + left. destruct He as [->|(z & _ & ->)]; [|discriminate]. repeat split.
  - destruct S as (Hw & Hx & Hv).
    assert (exists v, r = Ok v) as [v ->].
    { destruct (i_warnings it); [exact Hx|]. cbn in Hx. exact Hx. }
    specialize (Hv v eq_refl).
    destruct (copy_spec U (f_heap f) (f_table f) ct (to_held _ _ _ Htab) ct ch) as (ch' & Ec' & G' & A' & _); auto.
    { intros y Hy; exact Hy. }
    rewrite Ec'.
    assert (Nm : exists name, result_name (f_heap f) v = Ok name /\
      if faults (env_of U (f_heap f) (Some (f_table f))) p
      then exists c n l, p = PAtt c n /\ st_lookup U (f_table f) (cat_prefix c ++ n) = Some l /\ name = sy_name (hget (f_heap f) l)
      else name = tri_name (den (env_of U (f_heap f) (Some (f_table f))) p)).
    { destruct (faults _ p).
      - destruct Hv as (c' & n' & l' & -> & -> & L). eexists. split; [reflexivity|]. exists c', n', l'. auto.
      - subst v. destruct (den _ p); eexists; split; reflexivity. }
    destruct Nm as (name & -> & Hname).
    assert (Fil : forall e, In e ct -> hget ch' (snd e) = filled U (f_heap f) (f_table f) (hget ch (snd e))).
    { intros e Hi. apply A'. now apply in_map. }
    assert (Nt' : named_types ch' ct).
    { intros k x Hi. pose proof (Fil (k, x) Hi) as F. cbn [snd] in F. rewrite F. unfold filled. destruct (st_lookup _ _ _) as [l'|] eqn:L.
      - cbn. unfold st_lookup in L. apply assoc_in in L. apply (to_types _ _ _ Htab _ _ L).
      - apply (Nt _ _ Hi). }
    rewrite (symbol_rows_ok _ _ Nt'). cbn [fst snd]. split; [apply Same|]. split; [reflexivity|]. split.
    + exists (i_warnings it), name. split; [exact Hw|]. split; [reflexivity|exact Hname].
    + split.
      { destruct (C19_subpolicies _ _ _ _ _ _ _ _ _ _ uok (to_values _ _ _ Htab) Hpar Ev) as [Ee Hsub].
        eexists. split; [reflexivity|]. rewrite <- Ee. now apply picture. }
      cbn [f_symbol_rows]. apply map_ext_in. intros e Hi. rewrite (Fil e Hi). unfold filled.
      destruct (st_lookup _ _ _); reflexivity.
Qed.

(** Pressing it again says the same. *)
Theorem C98_again (f : frame) : reachable f -> f_int_on f = true ->
  let f1 := fst (step U P f PressInterpret) in
  exists lines, f_console f1 = f_console f ++ lines /\
    f_console (fst (step U P f1 PressInterpret)) = f_console f1 ++ lines /\
    snd (step U P f1 PressInterpret) = snd (step U P f PressInterpret).
Proof.
  intros Hr Hon f1. destruct (C98_interpret f Hr Hon) as (_ & _ & _ & _ & _ & _ & _ & S & _). fold f1 in S.
  destruct S as (E1 & E2 & E3 & E4 & E5 & E6 & E7 & E8 & E9 & E10 & E11).
  injection E8 as B1 B2 B3 B4 B5.
  assert (G : forall g, f_int_on g = true -> f_heap g = f_heap f -> f_table g = f_table f -> f_ast g = f_ast f -> f_checked g = f_checked f ->
    exists lines x, f_console (fst (step U P g PressInterpret)) = f_console g ++ lines /\ snd (step U P g PressInterpret) = x /\
     (forall g', f_int_on g' = true -> f_heap g' = f_heap f -> f_table g' = f_table f -> f_ast g' = f_ast f -> f_checked g' = f_checked f ->
      f_console (fst (step U P g' PressInterpret)) = f_console g' ++ lines /\ snd (step U P g' PressInterpret) = x)).
  { intros g Hg K1 K2 K3 K4. cbn [step]. rewrite Hg. unfold command_interpret. rewrite K1, K2, K3, K4.
    destruct (f_ast f) as [a|]; [|eexists _, _; split; [reflexivity|split; [reflexivity|]]; intros g' Hg' J1 J2 J3 J4; rewrite Hg', J3; split; reflexivity].
    destruct (f_checked f) as [[ch ct]|]; [|eexists _, _; split; [reflexivity|split; [reflexivity|]]; intros g' Hg' J1 J2 J3 J4; rewrite Hg', J3, J4; split; reflexivity].
    destruct (evaluate U (f_heap f) (interp_new a) (Some (f_table f)) (Some 3)) as [it [v|e]] eqn:Ev;
      [destruct (copy_values U (f_heap f) (f_table f) ch ct ct) as [ch'|e] eqn:Ec;
        [destruct (result_name (f_heap f) v) as [nm|e] eqn:En; [destruct (symbol_rows ch' ct) as [rows|e] eqn:Es|]|
        destruct (is_hgpl e) eqn:Eh]|destruct (is_hgpl e) eqn:Eh];
    (eexists _, _; split; [reflexivity|split; [reflexivity|]]; intros g' Hg' J1 J2 J3 J4; rewrite Hg', J1, J2, J3, J4, Ev;
     try rewrite Ec; try rewrite En; try rewrite Es; try rewrite Eh; split; reflexivity). }
  destruct (G f Hon eq_refl eq_refl eq_refl eq_refl) as (lines & x & C1 & X1 & Q).
  exists lines. split; [exact C1|]. rewrite X1. apply Q; try congruence.
Qed.

(** ** C99 *)

(** *** Reading a text as a value (specification) *)

(** [s] is [w] without the blanks around it. *)
Definition stripped (w s : str) : Prop :=
  exists lead trail, w = lead ++ s ++ trail /\
    Forall (fun c => isspace U c = true) lead /\ Forall (fun c => isspace U c = true) trail /\
    (forall c r, s = c :: r -> isspace U c = false) /\ (forall r c, s = r ++ [c] -> isspace U c = false).
(** The text without braces and single quotes. *)
Inductive unmarked : str -> str -> Prop :=
| um_nil : unmarked [] []
| um_drop c s t : In c [123; 125; 39]%N -> unmarked s t -> unmarked (c :: s) t
| um_keep c s t : ~ In c [123; 125; 39]%N -> unmarked s t -> unmarked (c :: s) (c :: t).
Definition yes (text : str) : Prop := stripped (py_lower U text) (lit "true") \/ stripped (py_lower U text) (lit "t") \/ stripped (py_lower U text) (lit "1").
(** The value a text stands for in a row of some type. *)
Inductive entered (text : str) : symtype -> pyval -> Prop :=
| en_int z : int_literal U 10 text z -> entered text ST_INT (VInt z)
| en_float x : read_float P text = Some x -> entered text ST_FLOAT (VFloat x)
| en_string : entered text ST_STRING (VStr text)
| en_true : yes text -> entered text ST_BOOL (VBool true)
| en_false : ~ yes text -> entered text ST_BOOL (VBool false)
| en_set t ws ms : unmarked text t -> parts 44 t ws -> Forall2 stripped ws ms -> entered text ST_SET (VSet (map VStr ms)).

Fixpoint skip (s : str) : str := match s with c :: r => if isspace U c then skip r else s | [] => [] end.
Lemma strip_eq s : py_strip U s = rev (skip (rev (skip s))).
Proof. reflexivity. Qed.
Lemma skip_spec s : exists lead, s = lead ++ skip s /\ Forall (fun c => isspace U c = true) lead /\
  (forall c r, skip s = c :: r -> isspace U c = false).
Proof.
  induction s as [|c s IH]; cbn.
  - exists []. split; auto. split; [constructor|discriminate].
  - destruct (isspace U c) eqn:E.
    + destruct IH as (l & E1 & F & N). exists (c :: l). split; [cbn; congruence|]. split; auto.
    + exists []. split; auto. split; [constructor|]. intros c' r [= <- <-]. exact E.
Qed.
Lemma skip_lead l s : Forall (fun c => isspace U c = true) l -> skip (l ++ s) = skip s.
Proof. induction 1 as [|c l Hc Hl IH]; auto. cbn. now rewrite Hc. Qed.
Lemma skip_none s : (forall c r, s = c :: r -> isspace U c = false) -> skip s = s.
Proof. destruct s as [|c s]; auto. intros H. cbn. now rewrite (H c s eq_refl). Qed.
Lemma stripped_iff w s : stripped w s <-> s = py_strip U w.
Proof.
  rewrite strip_eq. split.
  - intros (lead & trail & -> & F1 & F2 & N1 & N2). rewrite skip_lead by auto. destruct s as [|c s].
    + cbn [app]. rewrite <- (app_nil_r trail) at 1. rewrite skip_lead by auto. reflexivity.
    + assert (skip ((c :: s) ++ trail) = (c :: s) ++ trail) as ->.
      { apply skip_none. intros c' r [= <- <-]. now apply (N1 c s). }
      rewrite rev_app_distr, skip_lead by now apply Forall_rev. rewrite skip_none; [now rewrite rev_involutive|].
      intros c' r E. apply (N2 (rev r) c'). rewrite <- (rev_involutive (c :: s)), E. reflexivity.
  - intros ->. destruct (skip_spec w) as (lead & E1 & F1 & N1). destruct (skip_spec (rev (skip w))) as (trail & E2 & F2 & N2).
    exists lead, (rev trail). split; [|split; [|split; [|split]]]; auto.
    + rewrite E1 at 1. f_equal. rewrite <- (rev_involutive (skip w)), E2 at 1. now rewrite rev_app_distr.
    + now apply Forall_rev.
    + intros c r E. apply (N1 c (r ++ rev trail)). rewrite <- (rev_involutive (skip w)), E2, rev_app_distr, E. reflexivity.
    + intros r c E. apply (N2 c (rev r)). rewrite <- (rev_involutive (skip _)), E, rev_app_distr. reflexivity.
Qed.

Lemma unmarked_iff s t : unmarked s t <-> t = drop_marks s.
Proof.
  assert (M : forall c, ((c =? 123) || (c =? 125) || (c =? 39))%N = true <-> In c [123; 125; 39]%N).
  { intros c. cbn. rewrite !orb_true_iff, !N.eqb_eq. intuition auto. }
  split.
  - induction 1 as [|c s t Hc H IH|c s t Hc H IH]; auto; unfold drop_marks; cbn [filter]; fold (drop_marks s); rewrite <- IH.
    + apply M in Hc. now rewrite Hc.
    + rewrite <- M in Hc. destruct (_ || _); [congruence|reflexivity].
  - intros ->. induction s as [|c s IH]; [constructor|]. unfold drop_marks. cbn [filter]. fold (drop_marks s). destruct (_ || _) eqn:E; cbn [negb].
    + apply um_drop; auto. now apply M.
    + apply um_keep; auto. rewrite <- M. congruence.
Qed.
Lemma parts_fun c s l : parts c s l -> l = split_on c s.
Proof.
  assert (W : forall w, ~ In c w -> split_on c w = [w]).
  { induction w as [|x w IH]; intros H; auto. cbn. destruct (x =? c)%N eqn:E.
    - apply N.eqb_eq in E as ->. exfalso. apply H. now left.
    - rewrite IH; auto. intros Hi. apply H. now right. }
  induction 1 as [w H|w r l H Hp IH]; [symmetry; auto|]. rewrite IH. clear IH Hp.
  induction w as [|x w IH]; cbn.
  - now rewrite N.eqb_refl.
  - destruct (x =? c)%N eqn:E; [apply N.eqb_eq in E as ->; exfalso; apply H; now left|].
    rewrite <- IH by (intros Hi; apply H; now right). reflexivity.
Qed.

Hypothesis DO : decimals_ok U.

Lemma yes_iff text : yes text <-> bool_of_text U text = true.
Proof.
  unfold yes, bool_of_text. rewrite !stripped_iff. cbv zeta. rewrite !orb_true_iff.
  rewrite !str_eqb_eq. intuition auto.
Qed.
Lemma entered_iff text t v : entered text t v <-> new_value U P t text = Some v.
Proof.
  split.
  - intros [z Hz|x Hx| |Hy|Hy|t0 ws ms Hu Hp Hs]; unfold new_value; auto.
    + apply (int_base_spec U DO) in Hz. now rewrite Hz.
    + now rewrite Hx.
    + apply yes_iff in Hy. now rewrite Hy.
    + rewrite yes_iff in Hy. now destruct (bool_of_text U text).
    + apply unmarked_iff in Hu as ->. apply parts_fun in Hp as ->. unfold set_of_text. f_equal. f_equal.
      induction Hs as [|w m ws ms Hw Hs IH]; auto. cbn. apply stripped_iff in Hw as ->. now rewrite IH.
  - unfold new_value. destruct t; try discriminate.
    + destruct (int_base U 10 text) as [z|] eqn:E; [|discriminate]. intros [= <-]. constructor. now apply (int_base_spec U DO).
    + destruct (read_float P text) eqn:E; [|discriminate]. intros [= <-]. now constructor.
    + intros [= <-]. constructor.
    + intros [= <-]. destruct (bool_of_text U text) eqn:E; constructor; rewrite yes_iff; congruence.
    + intros [= <-]. unfold set_of_text. rewrite <- map_map.
      econstructor; [now apply unmarked_iff|apply split_parts|].
      induction (split_on 44 (drop_marks text)); constructor; auto. now apply stripped_iff.
Qed.

(** *** Panel and table *)

(** The panel always shows the attributes that policies are evaluated with (as in the
    table, True and False stand for TRUE and FALSE). *)
Theorem C99_panel (f : frame) : reachable f ->
  Forall2 (fun r e => let s := hget (f_heap f) (snd e) in
      r_name r = sy_att_name s /\ r_type r = sy_type s /\ stored (r_value r) = sy_value s /\
      sy_name s = group_prefix (r_group r) ++ r_name r)
    (f_att_rows f) (f_table f).
Proof.
  intros H. apply reachable_inv in H as (_ & Hp & Ht). unfold panel in Hp. pose proof (to_names _ _ _ Ht) as N. clear Ht.
  revert Hp N. generalize (f_table f). induction (f_att_rows f) as [|r rows IH]; intros [|[k l] tb] Hp N; try discriminate; constructor.
  - cbn [map snd] in *. injection Hp as E1 E2 E3 E4 _. cbv zeta. rewrite E1, E2, E3, E4. repeat split; auto. apply (N k). now left.
  - apply IH; [now injection Hp|]. intros k' l' Hi. apply (N k'). now right.
Qed.

(** A text submitted for a row that stands for a value of the row's type becomes the value of
    that attribute, in the panel and in the table; a text that does not changes nothing.
    Nothing else changes and nothing is raised. *)
Definition same_but_attributes (f f' : frame) : Prop :=
  f_text f' = f_text f /\ f_box f' = f_box f /\ f_table f' = f_table f /\
  f_tokens f' = f_tokens f /\ f_ast f' = f_ast f /\ f_checked f' = f_checked f /\ buttons f' = buttons f /\
  f_token_rows f' = f_token_rows f /\ f_node_rows f' = f_node_rows f /\ f_symbol_rows f' = f_symbol_rows f /\
  f_console f' = f_console f /\ f_last_id f' = f_last_id f.
Theorem C99_submit (f : frame) (i : nat) (text : str) (r : att_row) (k : str) (l : loc) :
  reachable f -> nth_error (f_att_rows f) i = Some r -> nth_error (f_table f) i = Some (k, l) ->
  (forall v, entered text (r_type r) v ->
     let f' := fst (step U P f (SubmitValue i text)) in
     snd (step U P f (SubmitValue i text)) = None /\ same_but_attributes f f' /\
     nth_error (f_att_rows f') i = Some (AttRow (r_group r) (r_name r) (r_type r) v) /\
     hget (f_heap f') l = (let s := hget (f_heap f) l in
       Sym (sy_name s) (sy_att_name s) (sy_att_type s) (sy_type s) (stored v)) /\
     (forall j, j <> i -> nth_error (f_att_rows f') j = nth_error (f_att_rows f) j) /\
     (forall j k' l', j <> i -> nth_error (f_table f) j = Some (k', l') -> hget (f_heap f') l' = hget (f_heap f) l')) /\
  ((forall v, ~ entered text (r_type r) v) -> step U P f (SubmitValue i text) = (f, None)).
Proof.
  intros Hr Er El. apply reachable_inv in Hr as (_ & Hp & Ht). cbn [step].
  pose proof (update_spec U P f i text Hp Ht) as S. rewrite Er, El in S. split.
  - intros v Hv. apply entered_iff in Hv. rewrite Hv in S. cbv zeta. rewrite S. cbn [fst snd].
    pose proof (to_good _ _ _ Ht) as G. assert (Hl : (l < List.length (f_heap f))%nat) by (apply nth_error_In in El; now apply G in El).
    split; auto. split; [unfold same_but_attributes; repeat split|]. cbn [set_atts f_att_rows f_heap].
    split; [rewrite nth_set, Nat.eqb_refl, Er; reflexivity|]. split; [|split].
    + rewrite hset_same by auto. unfold set_sy_value. now rewrite conv_stored.
    + intros j Hj. rewrite nth_set. destruct (Nat.eqb i j) eqn:E; auto. apply Nat.eqb_eq in E. congruence.
    + intros j k' l' Hj Ej. apply hset_other. eapply different_objects; eauto.
  - intros Hn. destruct (new_value U P (r_type r) text) as [v|] eqn:E; auto. apply entered_iff in E. exfalso. eapply Hn; eauto.
Qed.

(** Whatever is submitted for a set becomes a set of one or more texts: sets of numbers and
    the empty set cannot be entered. *)
Theorem C99_sets_of_texts (text : str) (v : pyval) : entered text ST_SET v -> exists m ms, v = VSet (map VStr (m :: ms)).
Proof.
  intros H. inversion H as [| | | | |t ws ms Hu Hp Hs]; subst. destruct Hp; inversion Hs; subst; eauto.
Qed.

(** *** Submitting a value as the dialog shows it *)

Lemma dec_numeral n : forall f acc, (n < 2 ^ N.of_nat (S f))%N ->
  exists d, dec_digits (S f) n acc = d ++ acc /\ numeral U 10 d n.
Proof.
  intros f. revert n. induction f as [|f IH]; intros n acc Hn; cbn [dec_digits].
  - assert (n < 10)%N by (cbn in Hn; lia). assert ((n <? 10)%N = true) as -> by now apply N.ltb_lt.
    exists [(48 + n mod 10)%N]. split; auto. rewrite N.mod_small by auto. constructor. constructor; lia.
  - destruct (n <? 10)%N eqn:E.
    + apply N.ltb_lt in E. exists [(48 + n mod 10)%N]. split; auto. rewrite N.mod_small by auto. constructor. constructor; lia.
    + destruct (IH (n / 10)%N ((48 + n mod 10)%N :: acc)) as (d & E1 & Hd).
      { apply N.div_lt_upper_bound; [lia|]. rewrite Nat2N.inj_succ, N.pow_succ_r' in Hn. lia. }
      cbn [dec_digits] in E1. exists (d ++ [(48 + n mod 10)%N]). split; [rewrite E1, <- app_assoc; reflexivity|].
      rewrite (N.div_mod n 10) at 2 by lia. rewrite (N.mul_comm 10). apply nu_more; auto.
      constructor; pose proof (N.mod_lt n 10); lia.
Qed.
Lemma str_of_Z_literal z : int_literal U 10 (str_of_Z z) z.
Proof.
  unfold str_of_Z. destruct (dec_numeral (Z.abs_N z) (N.to_nat (N.log2 (Z.abs_N z))) []) as (d & E & Hd).
  { rewrite Nat2N.inj_succ, N2Nat.id. destruct (N.eq_dec (Z.abs_N z) 0) as [->|Hne]; [reflexivity|].
    apply N.log2_spec. lia. }
  rewrite E. cbv zeta. rewrite app_nil_r. destruct (z <? 0) eqn:Ez.
  - exists [], [45%N], true, [], d, (Z.abs_N z), []. split; [cbn; now rewrite app_nil_r|]. split; [constructor|]. split; [constructor|].
    split; [constructor|]. split; [constructor|]. split; [exact Hd|lia].
  - exists [], [], false, [], d, (Z.abs_N z), []. split; [cbn; now rewrite app_nil_r|]. split; [constructor|]. split; [constructor|].
    split; [constructor|]. split; [constructor|]. split; [exact Hd|lia].
Qed.
Lemma int_shown z : int_base U 10 (str_of_Z z) = Ok z.
Proof. apply (int_base_spec U DO), str_of_Z_literal. Qed.
Lemma shown_plain v : (forall z, ~ int_literal U 10 (py_str P v) z) -> dialog_text U P v = py_str P v.
Proof.
  intros H. unfold dialog_text. destruct (int_base U 10 (py_str P v)) as [z|] eqn:E; auto.
  apply (int_base_spec U DO) in E. exfalso. eapply H; eauto.
Qed.

(** A member of a set that is shown between quotes, without separators or blanks at its ends. *)
Definition simple_member (m : str) : Prop :=
  (forall c, In c m -> (32 <= c <= 126)%N /\ ~ In c [34; 39; 44; 92; 123; 125]%N) /\
  (forall c r, m = c :: r -> c <> 32%N) /\ (forall r c, m = r ++ [c] -> c <> 32%N).
(** The rows whose value the dialog shows in a form that it also reads. *)
Inductive survives : symtype -> pyval -> Prop :=
| sv_int z : survives ST_INT (VInt z)
| sv_bool b : survives ST_BOOL (VBool b)
| sv_tri t : t <> UNDEF -> survives ST_BOOL (VTri t)
| sv_string s : (forall z, ~ int_literal U 10 s z) -> survives ST_STRING (VStr s)
| sv_float x : (forall z, ~ int_literal U 10 (show_float P x) z) -> read_float P (show_float P x) = Some x ->
    survives ST_FLOAT (VFloat x)
| sv_set ms : ms <> [] -> Forall simple_member ms -> Permutation (map VStr ms) (set_order P (map VStr ms)) ->
    survives ST_SET (VSet (map VStr ms)).
Definition same_value (v w : pyval) : Prop :=
  v = w \/ exists l l', v = VSet l /\ w = VSet l' /\ Permutation l l'.

Lemma simple_plain m : simple_member m -> plain_str m = true.
Proof.
  intros (H & _). unfold plain_str. apply forallb_forall. intros c Hc. destruct (H c Hc) as [R N]. unfold plain_char.
  cbn in N. repeat (apply andb_true_intro; split); try (apply N.leb_le; lia); apply negb_true_iff, N.eqb_neq; intros ->; apply N; auto 7.
Qed.
Lemma keep_simple m : simple_member m -> drop_marks m = m.
Proof.
  intros (H & _). unfold drop_marks. induction m as [|c m IH]; auto. cbn [filter].
  assert (((c =? 123) || (c =? 125) || (c =? 39))%N = false) as ->.
  { destruct (H c (or_introl eq_refl)) as [_ N]. cbn in N. rewrite !orb_false_iff, !N.eqb_neq.
    repeat split; intros ->; apply N; auto 7. }
  cbn. f_equal. apply IH. intros x Hx. apply H. now right.
Qed.
Lemma drop_app a b : drop_marks (a ++ b) = drop_marks a ++ drop_marks b.
Proof. unfold drop_marks. now rewrite filter_app. Qed.
Lemma drop_joined ms : Forall simple_member ms ->
  drop_marks (join (lit ", ") (map (fun m => lit "'" ++ m ++ lit "'") ms)) = join (lit ", ") ms.
Proof.
  assert (Q : forall m, simple_member m -> drop_marks (lit "'" ++ m ++ lit "'") = m).
  { intros m H. rewrite !drop_app, (keep_simple m H). change (drop_marks (lit "'")) with (@nil N). now rewrite app_nil_r. }
  induction 1 as [|m ms Hm Hs IH]; auto. destruct ms as [|m' ms]; [now apply Q|].
  cbn [map join] in *. rewrite !drop_app, <- !drop_app. rewrite drop_app, Q by auto. f_equal.
  rewrite drop_app. f_equal. exact IH.
Qed.
Lemma joined_parts m ms : Forall simple_member (m :: ms) -> parts 44 (join (lit ", ") (m :: ms)) (m :: map (cons 32%N) ms).
Proof.
  assert (N44 : forall x, simple_member x -> ~ In 44%N x).
  { intros x (H & _) Hi. destruct (H _ Hi) as [_ N]. apply N. cbn. auto 7. }
  assert (G : forall ms m p, ~ In 44%N (p ++ m) -> Forall simple_member ms ->
            parts 44 (p ++ join (lit ", ") (m :: ms)) ((p ++ m) :: map (cons 32%N) ms)).
  { clear m ms. induction ms as [|m' ms IH]; intros m p Hp Hs; [now constructor|].
    inversion Hs; subst. cbn [join map]. change (lit ", ") with ([44%N] ++ [32%N]). rewrite <- !app_assoc. rewrite app_assoc.
    cbn [app]. apply pt_more; auto. apply (IH m' [32%N]); auto. cbn. intros [E|E]; [discriminate|]. now apply (N44 m'). }
  intros H. inversion H; subst. apply (G ms m []); auto.
Qed.
Lemma space_char c : (33 <= c <= 126)%N -> isspace U c = false.
Proof.
  intros H. destruct (isspace U c) eqn:E; auto. exfalso. revert E. unfold isspace, asc.
  assert ((c <? 128)%N = true) as -> by (apply N.ltb_lt; lia). rewrite orb_true_iff, !andb_true_iff, !N.leb_le. lia.
Qed.
Lemma simple_ends m : simple_member m -> (forall c r, m = c :: r -> isspace U c = false) /\ (forall r c, m = r ++ [c] -> isspace U c = false).
Proof.
  intros (H & H1 & H2). split.
  - intros c r ->. apply space_char. pose proof (H1 c r eq_refl). destruct (H c (or_introl eq_refl)). lia.
  - intros r c ->. apply space_char. pose proof (H2 r c eq_refl). destruct (H c) as [? _]; [apply in_or_app; right; now left|]. lia.
Qed.

Lemma sets_shown ms : ms <> [] -> Forall simple_member ms -> Permutation (map VStr ms) (set_order P (map VStr ms)) ->
  exists ms', Permutation ms ms' /\ dialog_text U P (VSet (map VStr ms)) = lit "{" ++ join (lit ", ") (map (fun m => lit "'" ++ m ++ lit "'") ms') ++ lit "}".
Proof.
  intros Hne Hs Hp. destruct (Permutation_map_inv VStr _ (Permutation_sym Hp)) as (ms' & E & Hp').
  exists ms'. split; [now symmetry|].
  assert (py_str P (VSet (map VStr ms)) = lit "{" ++ join (lit ", ") (map (fun m => lit "'" ++ m ++ lit "'") ms') ++ lit "}") as Es.
  { destruct ms as [|m ms]; [congruence|]. cbn [map py_str]. change (VStr m :: map VStr ms) with (map VStr (m :: ms)). rewrite E.
    f_equal. f_equal. f_equal. rewrite map_map. apply map_ext_in. intros x Hx. cbn [py_repr].
    rewrite simple_plain; auto. rewrite Forall_forall in Hs. apply Hs. first [exact (Permutation_in _ Hp' Hx)|exact (Permutation_in _ (Permutation_sym Hp') Hx)]. }
  rewrite <- Es. apply shown_plain. rewrite Es. change (lit "{") with [123%N]. cbn [app].
  intros z (lead & sg & neg & px & ds & n & trail & E1 & F1 & _ & Sg & Px & Nu & _).
  assert (ND : forall s k, numeral U 10 s k -> exists c d r, s = c :: r /\ digit_char U 10 c d).
  { induction 1 as [c d Hd|s k c d H (c' & d' & r & -> & Hd')|s k c d H (c' & d' & r & -> & Hd')];
      [exists c, d, []; auto|exists c', d'; eexists; split; [reflexivity|auto]|exists c', d'; eexists; split; [reflexivity|auto]]. }
  destruct (ND _ _ Nu) as (c & d & r & -> & Hd).
  destruct lead as [|b lead]; [|injection E1 as <- _; inversion F1 as [|? ? Hb _]; inversion Hb; lia].
  destruct Sg; try discriminate. inversion Px; try discriminate; subst.
  cbn [app] in E1. assert (c = 123%N) as Ec by (now injection E1). clear E1 Nu ND. revert Ec. destruct Hd; lia.
Qed.
Lemma reads_back t v : survives t v -> exists w, entered (dialog_text U P v) t w /\ same_value (stored v) (stored w).
Proof.
  intros [z|b|tv Hu|s Hs|x Hx Hr|ms Hne Hs Hp].
  - exists (VInt z). split; [|now left]. apply entered_iff. unfold dialog_text. cbn [py_str py_repr]. rewrite int_shown. cbn. now rewrite int_shown.
  - exists (VBool b). split; [|now left]. apply entered_iff. destruct b; vm_compute; reflexivity.
  - destruct tv; [exists (VBool true)|exists (VBool false)|congruence]; (split; [apply entered_iff; vm_compute; reflexivity|now left]).
  - exists (VStr s). split; [|now left]. rewrite shown_plain by exact Hs. constructor.
  - exists (VFloat x). split; [|now left]. rewrite shown_plain by exact Hx. constructor. exact Hr.
  - destruct (sets_shown ms Hne Hs Hp) as (ms' & Pm & ->). exists (VSet (map VStr ms')).
    split; [|right; do 2 eexists; split; [reflexivity|]; split; [reflexivity|]; now apply Permutation_map].
    assert (Hs' : Forall simple_member ms') by (eapply Permutation_Forall; eauto).
    destruct ms' as [|m ms']; [apply Permutation_sym, Permutation_nil in Pm; congruence|].
    econstructor.
    + apply unmarked_iff. reflexivity.
    + rewrite !drop_app, (drop_joined _ Hs'). change (drop_marks (lit "{")) with (@nil N). change (drop_marks (lit "}")) with (@nil N).
      cbn [app]. rewrite app_nil_r. now apply joined_parts.
    + inversion Hs' as [|? ? Hm Hms]; subst. constructor.
      * destruct (simple_ends m Hm). exists [], []. split; [now rewrite app_nil_r|]. auto.
      * clear - Hms. induction Hms as [|x l Hx Hl IH]; cbn; constructor; auto. destruct (simple_ends x Hx).
        exists [32%N], []. split; [now rewrite app_nil_r|]. split; [repeat constructor|]. auto.
Qed.

(** Opening the dialog of such a row and pressing Submit changes nothing but the order of a set. *)
Theorem C99_resubmit (f : frame) (i : nat) (r : att_row) (k : str) (l : loc) :
  reachable f -> nth_error (f_att_rows f) i = Some r -> nth_error (f_table f) i = Some (k, l) ->
  survives (r_type r) (r_value r) ->
  let f' := fst (step U P f (SubmitValue i (dialog_text U P (r_value r)))) in
  snd (step U P f (SubmitValue i (dialog_text U P (r_value r)))) = None /\ same_but_attributes f f' /\
  (let s := hget (f_heap f) l in let s' := hget (f_heap f') l in
   sy_name s' = sy_name s /\ sy_att_name s' = sy_att_name s /\ sy_att_type s' = sy_att_type s /\ sy_type s' = sy_type s /\
   same_value (sy_value s) (sy_value s')) /\
  (forall j k' l', j <> i -> nth_error (f_table f) j = Some (k', l') -> hget (f_heap f') l' = hget (f_heap f) l').
Proof.
  intros Hr Er El Hs. destruct (reads_back _ _ Hs) as (w & Hw & Hv).
  destruct (C99_submit f i (dialog_text U P (r_value r)) r k l Hr Er El) as (S & _). destruct (S w Hw) as (E & Hsame & _ & Hl & _ & Hother).
  cbv zeta. split; [exact E|]. split; [exact Hsame|]. rewrite Hl. cbv zeta. cbn [sy_name sy_att_name sy_att_type sy_type sy_value].
  split; [|exact Hother]. repeat (split; [reflexivity|]).
  apply C99_panel in Hr. assert (stored (r_value r) = sy_value (hget (f_heap f) l)) as <-; [|exact Hv].
  clear - Hr Er El. revert Er El. revert i. induction Hr as [|a b la lb Hab Hr IH]; intros [|i] Er El; try discriminate.
  - injection Er as <-. injection El as ->. apply Hab.
  - eapply IH; eauto.
Qed.

(** ** Tables to start with *)

Lemma NoDup_snoc {A} (l : list A) x : NoDup l -> ~ In x l -> NoDup (l ++ [x]).
Proof.
  intros H Hx. induction H as [|y l Hy _ IH]; cbn [app]; [constructor; [auto|constructor]|].
  constructor; [rewrite in_app_iff; cbn [In] in *; intuition|apply IH; cbn [In] in Hx; tauto].
Qed.
Lemma build_dict_ok types ty d : In ty cats -> (forall n t, assoc n types = Some t -> t <> ST_NONE) ->
  Forall (fun e => value_ok (snd e)) d ->
  forall h tb, table_ok U h tb -> table_ok U (fst (build_dict U types ty d (h, tb))) (snd (build_dict U types ty d (h, tb))).
Proof.
  intros Hc Ht. induction 1 as [|[n v] d Hv Hd IH]; intros h tb H; [exact H|]. cbn [build_dict]. set (s := set_sy_type _ _). cbv zeta.
  assert (Es : s = symbol_for U types ty (n, v)).
  { unfold s, symbol_for, set_sy_type. rewrite name_new. cbn. now rewrite conv_stored. }
  clearbody s. subst s. cbn [halloc]. apply IH. clear IH. set (s := symbol_for U types ty (n, v)).
  assert (Hg : forall k l, In (k, l) tb -> hget (h ++ [s]) l = hget h l).
  { intros k l Hi. destruct (to_good _ _ _ H) as [_ G]. apply hget_app. now apply (G k). }
  unfold st_define. rewrite hget_new. destruct H as [[Hnd G] Hval Hheld Hty Hna].
  assert (Hs : table_ok U (h ++ [s]) tb).
  { constructor.
    - split; auto. intros k l Hi. destruct (G _ _ Hi). rewrite app_length, (Hg k) by auto. split; auto. lia.
    - apply Forall_app. split; auto. constructor; auto. cbn. unfold stored. cbn [snd] in *. destruct v; try exact I; auto; now destruct b.
    - apply Forall_app. split; auto. constructor; auto. cbn. rewrite <- (conv_stored v). apply stored_idem.
    - intros k l Hi. rewrite (Hg k) by auto. now apply (Hty k).
    - intros k l Hi. rewrite (Hg k) by auto. now apply (Hna k). }
  destruct (assoc (py_lower U (sy_name s)) tb) as [l|] eqn:E; cbn [fst]; [exact Hs|].
  destruct Hs as [[Hnd' G'] Hval' Hheld' Hty' Hna'].
  assert (Hn : forall k l, In (k, l) (tb ++ [(py_lower U (sy_name s), List.length h)]) ->
            In (k, l) tb \/ k = py_lower U (sy_name s) /\ l = List.length h).
  { intros k l Hi. apply in_app_or in Hi as [Hi|[Hi|[]]]; auto. injection Hi as <- <-. auto. }
  constructor; auto.
  - split.
    + rewrite map_app. cbn [map fst]. apply NoDup_snoc; auto. now apply assoc_none.
    + intros k l Hi. apply Hn in Hi as [Hi|[-> ->]]; [now apply G'|]. rewrite hget_new, app_length. split; auto. cbn. lia.
  - intros k l Hi. apply Hn in Hi as [Hi|[-> ->]]; [now apply (Hty' k)|]. rewrite hget_new. cbn.
    destruct (assoc _ types) eqn:Ea; [eapply Ht; eauto|discriminate].
  - intros k l Hi. apply Hn in Hi as [Hi|[-> ->]]; [now apply (Hna' k)|]. rewrite hget_new. subst s. cbn.
    destruct Hc as [<-|[<-|[<-|[<-|[<-|[]]]]]]; reflexivity.
Qed.

(** The demo can be started with every table that a SymbolTableBuilder makes of hashable
    values, whatever types (but None) it was given. *)
Theorem C97_start (b : builder) (last : Z) :
  (forall n t, assoc n (b_types b) = Some t -> t <> ST_NONE) -> Forall (fun e => value_ok (snd (snd e))) (entries b) ->
  let '(h, tb) := build_table U b [] in
  exists f, frame_new h tb last = Ok f /\ reachable f /\ f_table f = tb /\ f_heap f = h /\ nothing_kept f /\
            buttons f = (true, false, false, false, false) /\ f_box f = true /\ f_console f = [].
Proof.
  intros Ht Hv. unfold build_table. cbv zeta. destruct b as [types us ob en ad co]. cbn [b_types b_user b_object b_env b_admin b_connect] in *.
  unfold entries, cats in Hv. cbn [flat_map dict_of b_user b_object b_env b_admin b_connect] in Hv.
  rewrite !Forall_app, !Forall_map in Hv. destruct Hv as (H1 & H2 & H3 & H4 & H5 & _). cbn [snd] in *.
  assert (H0 : table_ok U [] []).
  { constructor; [split; [constructor|intros ? ? []]|constructor|constructor|intros ? ? []|intros ? ? []]. }
  assert (C : forall ty d st, In ty cats -> Forall (fun e => value_ok (snd e)) d -> table_ok U (fst st) (snd st) ->
            table_ok U (fst (build_dict U types ty d st)) (snd (build_dict U types ty d st))).
  { intros ty d [h tb] Hi Hd H. now apply build_dict_ok. }
  pose proof (C CON_ATT co _ ltac:(cbn; auto 7) H5 (C ADM_ATT ad _ ltac:(cbn; auto 7) H4 (C ENV_ATT en _ ltac:(cbn; auto 7) H3
             (C OBJ_ATT ob _ ltac:(cbn; auto 7) H2 (C USR_ATT us ([], []) ltac:(cbn; auto 7) H1 H0))))) as T.
  destruct (build_dict U types CON_ATT co _) as [h tb]. cbn [fst snd] in T.
  assert (Ef : exists f, frame_new h tb last = Ok f).
  { unfold frame_new. assert (exists rows, att_rows h tb = Ok rows) as [rows ->]; [|eexists; reflexivity].
    pose proof (to_types _ _ _ T) as N. clear - N. unfold att_rows. induction tb as [|[k l] tb IH]; [eexists; reflexivity|].
    cbn [mapM snd]. assert (type_name (sy_type (hget h l)) = Ok (sy_type (hget h l))) as ->.
    { pose proof (N k l (or_introl eq_refl)). now destruct (sy_type (hget h l)). }
    cbn [bind]. destruct IH as [rows ->]; [intros k' l' Hi; apply (N k'); now right|]. eexists; reflexivity. }
  destruct Ef as [f Ef]. exists f. split; auto.
  assert (R : reachable f) by (exists h, tb, last, f, []; auto).
  unfold frame_new in Ef. destruct (att_rows h tb); [|discriminate]. cbn in Ef. injection Ef as <-.
  split; [exact R|]. unfold nothing_kept, buttons. cbn. repeat split.
Qed.

(** ** C100 *)

(** A callback is left with an exception in these cases only. *)
Theorem C100_uncaught (f : frame) (e : event) (x : exc) : reachable f -> snd (step U P f e) = Some x ->
  match e with
  | PressTokenize =>
      x = EAttribute /\ (exists pre c w, f_text f = pre ++ (c :: w) ++ lit "." /\ letter U c /\ Forall (id_char U) w) \/
      x = EValue /\ (exists d, In d (f_text f) /\ asc d = false /\ isdigit U d = true)
  | PressParse => x = EIndex /\ exists ts s u t, tokens_of_box f ts /\ ts = s :: u ++ [t] /\ t_type t = END /\ pre_policy u
  | PressTypeCheck => exists p a, reads_as (f_text f) p /\ In a (attributes p) /\ ~ steady_name U a
  | PressInterpret => x = EType /\ exists a p, tree_of_box f a /\ abs (erase a) = Some p /\
                        root_faults (env_of U (f_heap f) (Some (f_table f))) p = true
  | _ => False
  end.
Proof.
  intros Hr. pose proof (reachable_inv f Hr) as (Hp & Hpan & Htab). destruct e; cbn [step].
  - destruct (f_tok_on f); [|discriminate]. unfold command_tokenize, caught.
    destruct (lex_text U (f_text f)) as [ts|y] eqn:E; [discriminate|]. destruct (is_hgpl y) eqn:Eh; [discriminate|].
    intros [= <-]. destruct (C01_tokenize_total U (f_text f) uok) as [(b & C & _)|[(q & C)|[(C & W)|(C & W)]]]; rewrite E in C; try discriminate.
    + injection C as ->. discriminate.
    + injection C as ->. auto.
    + injection C as ->. auto.
  - destruct (f_parse_on f) eqn:Eon; [|discriminate]. unfold command_parse, caught.
    destruct Hp as [? B|? ? B|ts Hb B Ht|? ? ? ? B|? ? ? B]; try (buttons_of B; congruence).
    destruct Ht as (Ht & Ht2 & Ht3). rewrite Ht2. destruct (parse U ts (f_last_id f)) as [[a n]|y] eqn:E; [discriminate|].
    destruct (is_hgpl y) eqn:Eh; [discriminate|]. intros [= <-].
    destruct (C11_exceptions U (f_text f) ts (f_last_id f) uok Ht) as [(a & n & C)|[(t & _ & C)|C]]; rewrite E in C; try discriminate;
      injection C as ->; [discriminate|]. split; auto.
    apply (C11_index_error U (f_text f)) in E as (s & u & t & E1 & E2 & E3); auto. exists ts, s, u, t. repeat split; auto.
  - destruct (f_check_on f) eqn:Eon; [|discriminate]. intros Hx.
    assert (exists a p, tree_of_box f a /\ abs (erase a) = Some p) as (a0 & p0 & (_ & last & n & Hpar) & Ha0).
    { destruct Hp as [? B|? ? B|? ? B|? a ? ? B ? Ha|? ? ? B]; try (buttons_of B; congruence).
      destruct (proj2 Ha) as (last & n & Hpar). destruct (parse_text_abs _ _ _ _ _ uok Hpar) as [p Habs]. eauto. }
    destruct (steady_dec U (attributes p0)) as [St|(b & Hb & Nb)]; [exfalso|exists p0, b; split; [exists last, a0, n|]; auto].
    assert (Ea : steady_text (f_text f)).
    { intros q (last' & a' & n' & Hp' & Hq). replace q with p0; [exact St|].
      unfold parse_text in Hpar. apply bind_ok in Hpar as (ts & Hl & Hpar). apply C08_parser_sound in Hpar.
      destruct (C09_text_complete U _ _ _ last' uok Hl Hpar) as (a2 & n2 & Hp2 & He).
      rewrite Hp' in Hp2. injection Hp2 as <- <-. rewrite He, Ha0 in Hq. now injection Hq. }
    destruct (C97_type_check f Hr Eon Ea) as (a & p & _ & _ & N & _). cbn [step] in N. rewrite Eon in N. congruence.
  - destruct (f_opt_on f); discriminate.
  - destruct (f_int_on f) eqn:Eon; [|discriminate]. intros Hx.
    destruct (C98_interpret f Hr Eon) as (a & p & ch & ct & Ha & Hab & _ & _ & C). cbn [step] in C. rewrite Eon in C.
    destruct (root_faults _ _) eqn:Er; [|destruct C as [C _]; congruence].
    destruct C as (y & _ & _ & _ & [(_ & C & _)|(_ & C & _)]); [|congruence]. split; [congruence|]. exists a, p. auto.
  - discriminate.
  - destruct (f_box f); discriminate.
  - pose proof (update_spec U P f row text Hpan Htab) as S.
    destruct (nth_error (f_att_rows f) row); [|now rewrite S]. destruct (nth_error (f_table f) row) as [[k l]|]; [|contradiction].
    destruct (new_value U P (r_type _) text); rewrite S; discriminate.
Qed.
(** On an empty box, or a policy that stops where an expression has to start, Parse is always
    left with IndexError. *)
Theorem C100_stops_short (f : frame) (ts : list token) (s : token) (u : list token) (t : token) :
  reachable f -> f_parse_on f = true -> tokens_of_box f ts -> ts = s :: u ++ [t] -> t_type t = END -> pre_policy u ->
  snd (step U P f PressParse) = Some EIndex.
Proof.
  intros Hr Hon (Ht & Ht2 & _) -> He Hu. cbn [step]. rewrite Hon. unfold command_parse. rewrite Ht2.
  assert (parse U (s :: u ++ [t]) (f_last_id f) = Err EIndex) as -> by (apply (C11_index_error U (f_text f)); eauto 8). reflexivity.
Qed.
(** A text that is not a policy has to be given up: after Tokenize nothing but Reset leads on. *)
Theorem C100_stuck (f : frame) (l : list event) : reachable f -> f_box f = false ->
  (forall last a n, parse_text U (f_text f) last <> Ok (a, n)) -> ~ In PressReset l ->
  let f' := use U P f l in
  f_text f' = f_text f /\ f_box f' = false /\ f_check_on f' = false /\ f_int_on f' = false /\ f_ast f' = None.
Proof.
  intros Hr Hb Hn Hl. cbv zeta. destruct (C97_locked f l Hb Hl) as [Et Eb]. split; auto. split; auto.
  assert (R : reachable (use U P f l)) by now apply reachable_use. apply reachable_inv in R as [Hp _].
  assert (N : forall a, ~ tree_of_box (use U P f l) a).
  { intros a (_ & last & n & H). rewrite Et in H. eapply Hn; eauto. }
  destruct Hp as [? B (? & ? & _)|? ? B (? & ? & _)|? ? B|? ? ? ? B ? Ha|? ? ? B ? Ha]; try (exfalso; eapply N; eauto; fail);
    buttons_of B; auto.
Qed.

End Demo.

