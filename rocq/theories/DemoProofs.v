(** * DemoProofs: lemmas about the graphical policy tester *)

From Coq Require Import NArith ZArith List Bool String Lia.
From Verif Require Import PyBase PyNum Lexer LexSpec LexProofs LexProofs2 LexProps Values Ast Parser Grammar
  ParseProofs ParseProofs2 Syntax PrintProofs ParseProps AbsProofs Symbols Interp EvalSpec EvalProofs EvalProofs2 EvalProps
  SymbolProps TypeCheck TypeSpec TypeProofs TypeProps AttCert AAuth Demo.
Import ListNotations.
Open Scope Z_scope.

(** ** The checker's symbol table *)

(** Every symbol has a type other than None. *)
Definition named_types (h : heap) (tb : table) : Prop := forall k l, In (k, l) tb -> sy_type (hget h l) <> ST_NONE.
Definition no_values (h : heap) (tb : table) : Prop := forall k l, In (k, l) tb -> sy_value (hget h l) = VNone.

Definition typable (k : ast) : Prop := is_att k = true \/ convert_token_type (t_type (n_tok k)) <> ST_NONE.
Inductive ops_ok : ast -> Prop :=
| ops_node c t i r ks : (c = COp -> Forall typable ks) -> Forall (fun k => skipped k = true \/ ops_ok k) ks ->
    ops_ok (Node c t i r ks).

Lemma parsed_ops a : forall p, abs (erase a) = Some p -> typed (erase a) -> ops_ok a.
Proof.
  induction a as [c t i r ks IH] using ast_ind'. intros p Ha Ht. cbn [erase] in *.
  apply typed_inv in Ht as [_ Ht]. rewrite Forall_forall in IH.
  assert (Hk : forall k q, In k ks -> abs (erase k) = Some q -> ops_ok k).
  { intros k q Hi Hq. apply (IH k Hi q Hq). rewrite Forall_forall in Ht. apply Ht. now apply in_map. }
  assert (Ho : forall k o, In k ks -> abs_operand (erase k) = Some o -> typable k /\ (skipped k = true \/ ops_ok k)).
  { intros k o Hi Hq. rewrite Forall_forall in Ht. pose proof (Ht _ (in_map _ _ _ Hi)) as Tk.
    destruct (operand_view k o Hq Tk) as (V1 & V2 & V3 & V4 & V5 & V6 & V7 & V8). split.
    - destruct o as [x|l|k' n]; [right|right|left; exact V1].
      + destruct x; rewrite (V6 _ eq_refl); discriminate.
      + rewrite (V6 _ eq_refl); discriminate.
    - destruct k as [c' t' i' r' ks']. unfold skipped. cbn [n_cls erase] in *.
      apply abs_operand_inv in Hq as [(e & l & -> & _ & _)|[(k & s & Hc & Hv & Hn & _)|(a & Ha' & _)]]; [now left| |].
      + right. constructor; [intros ->; discriminate|]. destruct ks'; [constructor|discriminate].
      + left. destruct (abs_atom_leaf _ _ _ _ Ha') as [_ [->|[->|[->| ->]]]]; reflexivity. }
  apply abs_inv in Ha as [(-> & Hn & _)|[(k & s & Hc & _ & Hn & _)|[(-> & k & q & Hn & Hq & _)|
      [(-> & l & rr & o & x & y & Hn & _ & Hl & Hr & _)|(-> & l & rr & x & y & Hn & Hl & Hr & _)]]]].
  - destruct ks; [|discriminate]. constructor; auto.
  - destruct ks; [|discriminate]. constructor; auto.
  - destruct ks as [|k1 [|]]; try discriminate. injection Hn as <-. constructor; [discriminate|].
    constructor; [right; apply (Hk k1 q); cbn; auto|constructor].
  - destruct ks as [|k1 [|k2 [|]]]; try discriminate. injection Hn as <- <-.
    destruct (Ho k1 x (or_introl eq_refl) Hl) as [A1 B1], (Ho k2 y (or_intror (or_introl eq_refl)) Hr) as [A2 B2].
    constructor; auto.
  - destruct ks as [|k1 [|k2 [|]]]; try discriminate. injection Hn as <- <-.
    constructor; [discriminate|]. constructor; [|constructor; [|constructor]]; right; [apply (Hk k1 x)|apply (Hk k2 y)]; cbn; auto.
Qed.

Section WithPython.
Variable U : unicode.
Variable P : pytext.

Definition checker_ok (st : tstate) : Prop :=
  good U (ts_heap st) (ts_table st) /\ named_types (ts_heap st) (ts_table st) /\ no_values (ts_heap st) (ts_table st).

(** Changing one object of a good table. *)
Lemma good_set h tb l s : good U h tb -> sy_name s = sy_name (hget h l) -> good U (hset h l s) tb.
Proof.
  intros [Hd Hg] Hn. split; auto. intros k l' Hi. rewrite hset_length. destruct (Hg _ _ Hi) as [H1 H2]. split; auto.
  destruct (Nat.eq_dec l l') as [<-|Hne]; [rewrite hset_same by auto; congruence|now rewrite hset_other].
Qed.
Lemma set_forall h tb l s (Q : symbol -> Prop) : good U h tb -> (forall k x, In (k, x) tb -> Q (hget h x)) -> Q s ->
  forall k x, In (k, x) tb -> Q (hget (hset h l s) x).
Proof.
  intros [Hd Hg] Ha Hs k x Hi. destruct (Hg _ _ Hi) as [Hl _].
  destruct (Nat.eq_dec l x) as [<-|Hne]; [now rewrite hset_same|rewrite hset_other; eauto].
Qed.

Lemma ok_error st n c l r : checker_ok st -> checker_ok (type_error st n c l r).
Proof. auto. Qed.
Lemma ok_define st n : checker_ok st -> checker_ok (fst (att_node U st n)).
Proof.
  intros (Hg & Ht & Hv). unfold att_node. destruct (t_val (n_tok n)); try (split; auto; fail). unfold halloc.
  set (x := symbol_new U s _ _ _). unfold st_define. rewrite hget_new.
  assert (G : good U (ts_heap st ++ [x]) (ts_table st)).
  { destruct Hg as [Hd Hg]. split; auto. intros k l Hi. destruct (Hg _ _ Hi) as [H1 H2]. rewrite app_length. cbn.
    rewrite hget_app by auto. split; auto; lia. }
  assert (T : forall k l, In (k, l) (ts_table st) -> hget (ts_heap st ++ [x]) l = hget (ts_heap st) l).
  { intros k l Hi. destruct Hg as [_ Hg]. apply hget_app. now apply (Hg k). }
  destruct (assoc _ _) eqn:E; cbn [fst]; unfold checker_ok; cbn [ts_heap ts_table].
  - split; [exact G|]. split; intros k l' Hi; rewrite (T k l' Hi); eauto.
  - split; [split|split].
    + rewrite map_app. cbn [map fst]. apply assoc_none in E. destruct G as [Hd _].
      revert Hd E. generalize (map fst (ts_table st)). generalize (py_lower U (sy_name x)). clear.
      intros k l Hd Hn. induction l as [|y l IH]; cbn.
      * constructor; auto; constructor.
      * inversion Hd; subst. constructor; [|apply IH; auto; intros ?; apply Hn; now right].
        rewrite in_app_iff. intros [?|[->|[]]]; auto. apply Hn. now left.
    + intros k l' H. apply in_app_or in H as [H|[H|[]]]; [now apply G in H|apply pair_equal_spec in H as [<- <-]].
      rewrite hget_new, app_length. cbn. split; auto. lia.
    + intros k l' H. apply in_app_or in H as [H|[H|[]]]; [rewrite (T _ _ H); eauto|apply pair_equal_spec in H as [<- <-]; rewrite hget_new; discriminate].
    + intros k l' H. apply in_app_or in H as [H|[H|[]]]; [rewrite (T _ _ H); eauto|apply pair_equal_spec in H as [<- <-]; now rewrite hget_new].
Qed.

Lemma ok_att_check st n : checker_ok st -> Forall typable (n_kids n) -> checker_ok (fst (att_check U st n)).
Proof.
  intros Ho Hk. unfold att_check.
  destruct (n_left n) as [l|] eqn:El; [|exact Ho]. destruct (n_right n) as [r|] eqn:Er; [|exact Ho].
  assert (typable l /\ typable r) as [Tl Tr].
  { destruct n as [c t i rr ks]. unfold n_left, n_right in *. cbn [n_kids] in *. destruct ks as [|k1 [|k2 ?]]; try discriminate.
    injection El as ->. injection Er as ->. inversion Hk as [|? ? ? Hk']; inversion Hk'; auto. }
  destruct (is_att l) eqn:Al; destruct (is_att r) eqn:Ar; cbn [andb].
  1:{ destruct (att_to_symbol_name (n_cls l) (n_tok l)), (att_to_symbol_name (n_cls r) (n_tok r)); try exact Ho.
      destruct (st_lookup U (ts_table st) a), (st_lookup U (ts_table st) a0); try exact Ho. destruct (_ && _); exact Ho. }
  1: assert (Tv : convert_token_type (t_type (n_tok r)) <> ST_NONE) by (destruct Tr; congruence).
  2: assert (Tv : convert_token_type (t_type (n_tok l)) <> ST_NONE) by (destruct Tl; congruence).
  3: assert (Tv : convert_token_type (t_type (n_tok l)) <> ST_NONE) by (destruct Tl; congruence).
  all: destruct (att_to_symbol_name _ _) as [an|]; [|exact Ho]; destruct (st_lookup _ _ an) as [al|]; [|exact Ho];
    destruct (symtype_eqb _ ST_UNKNOWN); [|destruct (_ && _); exact Ho]; unfold st_switch_type;
    destruct (st_lookup _ _ _) as [l'|] eqn:L; [|exact Ho]; cbn [fst];
    destruct Ho as (Hg & Ht & Hv); split; [|split]; cbn [ts_heap ts_table];
    [apply good_set; auto
    |exact (set_forall _ _ l' (set_sy_type (hget _ l') _) (fun s => sy_type s <> ST_NONE) Hg Ht Tv)
    |unfold st_lookup in L; apply assoc_in in L;
     exact (set_forall _ _ l' (set_sy_type (hget _ l') _) (fun s => sy_value s = VNone) Hg Hv (Hv _ _ L))].
Qed.

Lemma ok_op st n : checker_ok st -> Forall typable (n_kids n) -> checker_ok (fst (op_node U st n)).
Proof.
  intros Ho Hk. pose proof (ok_att_check st n Ho Hk) as A. unfold op_node. destruct (t_val (n_tok n)); try exact Ho.
  destruct (existsb _ _); [|destruct (existsb _ _); [|destruct (str_eqb _ _); [|destruct (str_eqb _ _)]]];
    unfold num_check, eq_check, in_check, subset_check; try exact Ho;
    destruct (n_left n); try exact Ho; destruct (n_right n); try exact Ho;
    repeat (match goal with |- context[if ?b then _ else _] => destruct b end); auto.
Qed.

Lemma ok_scan a : forall st, checker_ok st -> ops_ok a -> checker_ok (fst (scan_tree U st a)).
Proof.
  induction a as [c t i r ks IH] using ast_ind'. intros st Ho Hk. inversion Hk as [? ? ? ? ? Hop Hkids]; subst.
  assert (G : forall l, Forall (fun a => forall st, checker_ok st -> ops_ok a -> checker_ok (fst (scan_tree U st a))) l ->
    Forall (fun k => skipped k = true \/ ops_ok k) l -> forall st, checker_ok st ->
    checker_ok (fst ((fix go (st : tstate) (l : list ast) : tout :=
       match l with
       | [] => (st, None)
       | k :: rest =>
           if skipped k then go st rest
           else let '(st', e) := scan_tree U st k in
                match e with Some x => (st', Some x) | None => go st' rest end
       end) st l))).
  { clear. induction l as [|k l IHl]; intros HI HK st Ho; auto. inversion HI as [|? ? I1 I2]; subst.
    inversion HK as [|? ? K1 K2]; subst. destruct (skipped k) eqn:E; [now apply IHl|].
    destruct K1 as [?|K1]; [congruence|]. specialize (I1 st Ho K1).
    destruct (scan_tree U st k) as [st1 [e|]]; [exact I1|apply IHl; auto]. }
  specialize (G ks IH Hkids st Ho). cbn [scan_tree].
  match goal with |- context[let '(st1, e) := ?g in _] => destruct g as [st1 [e|]] end; auto.
  cbn [fst] in G. destruct (is_att_cls c); [now apply ok_define|].
  destruct c; auto. apply ok_op; auto.
Qed.

Lemma symbol_rows_ok h tb : named_types h tb -> symbol_rows h tb =
  Ok (map (fun e => (sy_name (hget h (snd e)), sy_type (hget h (snd e)), sy_value (hget h (snd e)))) tb).
Proof.
  unfold symbol_rows. intros H. induction tb as [|[k l] tb IH]; cbn [mapM map snd]; auto.
  assert (type_name (sy_type (hget h l)) = Ok (sy_type (hget h l))) as ->.
  { specialize (H k l (or_introl eq_refl)). destruct (sy_type (hget h l)); auto. congruence. }
  cbn [bind]. rewrite IH; auto. intros k' l' Hi. apply (H k' l'). now right.
Qed.

(** ** The attribute panel *)

(** Symbols hold what the setter stores, and sets of hashable members. *)
Definition held (h : heap) : Prop := Forall (fun s => conv_value (sy_value s) = sy_value s) h.
(** A table whose symbols belong to one of the five categories and have types. *)
Record table_ok (h : heap) (tb : table) : Prop := {
  to_good : good U h tb;
  to_values : heap_ok h;
  to_held : held h;
  to_types : named_types h tb;
  to_names : forall k l, In (k, l) tb ->
    sy_name (hget h l) = group_prefix (att_group (sy_att_type (hget h l))) ++ sy_att_name (hget h l) }.

Definition shown_row (r : att_row) : ttype * str * symtype * pyval := (r_group r, r_name r, r_type r, stored (r_value r)).
Definition symbol_row_of (s : symbol) : ttype * str * symtype * pyval :=
  (att_group (sy_att_type s), sy_att_name s, sy_type s, sy_value s).
(** The rows of the panel are the symbols of the table. *)
Definition panel (f : frame) : Prop :=
  map shown_row (f_att_rows f) = map (fun e => symbol_row_of (hget (f_heap f) (snd e))) (f_table f).

Lemma forall_set {h l s} (Q : symbol -> Prop) : Forall Q h -> Q s -> Forall Q (hset h l s).
Proof. revert l. induction h as [|x h IH]; intros [|l] H Hs; cbn; auto; inversion H; subst; constructor; auto. Qed.
Lemma held_get h l : held h -> stored (sy_value (hget h l)) = sy_value (hget h l).
Proof.
  intros H. rewrite <- conv_stored. unfold hget. destruct (nth_in_or_default l h no_symbol) as [Hi| ->]; [|reflexivity].
  unfold held in H. rewrite Forall_forall in H. now apply H.
Qed.
Lemma stored_idem v : conv_value (conv_value v) = conv_value v.
Proof. destruct v as [| | | |[]| | | |]; reflexivity. Qed.

Lemma table_set h tb l v : table_ok h tb -> value_ok v ->
  table_ok (hset h l (set_sy_value (hget h l) v)) tb.
Proof.
  intros [G V H T N] Hv. split.
  - now apply good_set.
  - apply forall_set; auto. cbn. destruct v; auto.
  - apply forall_set; auto. cbn. apply stored_idem.
  - intros k x Hi. destruct G as [_ G]. destruct (G _ _ Hi) as [Hl _].
    destruct (Nat.eq_dec l x) as [<-|Hne]; [rewrite hset_same by auto; apply (T _ _ Hi)|rewrite hset_other by auto; eauto].
  - intros k x Hi. destruct G as [_ G]. destruct (G _ _ Hi) as [Hl _].
    destruct (Nat.eq_dec l x) as [<-|Hne]; [rewrite hset_same by auto; apply (N _ _ Hi)|rewrite hset_other by auto; eauto].
Qed.

Lemma att_rows_ok h tb rows : att_rows h tb = Ok rows -> named_types h tb /\
  rows = map (fun e => let s := hget h (snd e) in AttRow (att_group (sy_att_type s)) (sy_att_name s) (sy_type s) (sy_value s)) tb.
Proof.
  unfold att_rows. revert rows. induction tb as [|[k l] tb IH]; cbn [mapM map snd]; intros rows H.
  - injection H as <-. split; auto. intros k l [].
  - destruct (type_name (sy_type (hget h l))) as [t|] eqn:E; [|discriminate]. cbn [bind] in H.
    destruct (mapM _ tb) as [rs|]; [|discriminate]. cbn [bind] in H. injection H as <-.
    destruct (IH rs eq_refl) as [T ->].
    assert (t = sy_type (hget h l) /\ sy_type (hget h l) <> ST_NONE) as [-> Hn]
      by (destruct (sy_type (hget h l)); try discriminate E; injection E as <-; split; auto; discriminate).
    split; auto. intros k' l' [[= <- <-]|Hi]; eauto.
Qed.

Lemma new_value_ok t text v : new_value U P t text = Some v -> value_ok v.
Proof.
  unfold new_value. destruct t; try discriminate.
  - destruct (int_base U 10 text); [|discriminate]. now intros [= <-].
  - destruct (read_float P text); [|discriminate]. now intros [= <-].
  - now intros [= <-].
  - now intros [= <-].
  - intros [= <-]. cbn. induction (split_on 44 (drop_marks text)); auto.
Qed.

Lemma set_nth_map {A B} (g : A -> B) i x l : map g (set_nth i x l) = set_nth i (g x) (map g l).
Proof. revert i. induction l as [|y l IH]; intros [|i]; cbn; auto. now rewrite IH. Qed.
Lemma set_nth_same {A} i (x : A) l : nth_error l i = Some x -> set_nth i x l = l.
Proof. revert i. induction l as [|y l IH]; intros [|i] H; cbn in *; try discriminate; [now injection H as ->|now rewrite IH]. Qed.
Lemma nth_set {A} i (x : A) l j : nth_error (set_nth i x l) j =
  if Nat.eqb i j then match nth_error l i with Some _ => Some x | None => None end else nth_error l j.
Proof.
  revert i j. induction l as [|y l IH]; intros [|i] [|j]; cbn; auto. 
  - now destruct (Nat.eqb i j).
Qed.

(** The symbol of a row. *)
Lemma row_symbol f i r : panel f -> table_ok (f_heap f) (f_table f) -> nth_error (f_att_rows f) i = Some r ->
  exists k l, nth_error (f_table f) i = Some (k, l) /\ shown_row r = symbol_row_of (hget (f_heap f) l) /\
    st_lookup U (f_table f) (group_prefix (r_group r) ++ r_name r) = Some l.
Proof.
  intros Hp Ht Hr. assert (H := f_equal (fun x => nth_error x i) Hp). cbn in H.
  rewrite (map_nth_error _ _ _ Hr) in H. symmetry in H.
  destruct (nth_error (f_table f) i) as [[k l]|] eqn:E; [|rewrite nth_error_None in E;
    assert (nth_error (map (fun e => symbol_row_of (hget (f_heap f) (snd e))) (f_table f)) i = None) as N
      by (apply nth_error_None; now rewrite map_length); congruence].
  rewrite (map_nth_error _ _ _ E) in H. cbn [snd] in H. injection H as E1 E2 E3 E4. exists k, l.
  split; auto. split; [unfold shown_row, symbol_row_of; congruence|].
  apply nth_error_In in E. unfold st_lookup. rewrite <- E1, <- E2, <- (to_names _ _ Ht _ _ E).
  destruct (to_good _ _ Ht) as [Hd Hg]. destruct (Hg _ _ E) as [_ <-]. now apply in_assoc.
Qed.

Lemma different_objects h tb i j k l k' l' : good U h tb -> nth_error tb i = Some (k, l) -> nth_error tb j = Some (k', l') ->
  i <> j -> l <> l'.
Proof.
  intros [Hd Hg] Hi Hj Hne ->. assert (k = k') as ->.
  { apply nth_error_In in Hi, Hj. destruct (Hg _ _ Hi), (Hg _ _ Hj). congruence. }
  apply Hne. apply (proj1 (NoDup_nth_error (map fst tb)) Hd).
  - rewrite map_length. apply nth_error_Some. congruence.
  - now rewrite (map_nth_error fst _ _ Hi), (map_nth_error fst _ _ Hj).
Qed.

(** What an edit of a row does. *)
Lemma update_spec f i text : panel f -> table_ok (f_heap f) (f_table f) ->
  match nth_error (f_att_rows f) i, nth_error (f_table f) i with
  | Some r, Some (_, l) =>
      match new_value U P (r_type r) text with
      | Some v => update_att U P f i text =
          (set_atts f (hset (f_heap f) l (set_sy_value (hget (f_heap f) l) v))
                    (set_nth i (AttRow (r_group r) (r_name r) (r_type r) v) (f_att_rows f)), None)
      | None => update_att U P f i text = (f, None)
      end
  | None, _ => update_att U P f i text = (f, None)
  | _, _ => False
  end.
Proof.
  intros Hp Ht. unfold update_att. destruct (nth_error (f_att_rows f) i) as [r|] eqn:E; auto.
  destruct (row_symbol f i r Hp Ht E) as (k & l & -> & _ & L).
  destruct (new_value U P (r_type r) text); auto. unfold st_set_value. now rewrite L.
Qed.

Lemma update_keeps f i text : panel f -> table_ok (f_heap f) (f_table f) ->
  panel (fst (update_att U P f i text)) /\
  table_ok (f_heap (fst (update_att U P f i text))) (f_table (fst (update_att U P f i text))).
Proof.
  intros Hp Ht. pose proof (update_spec f i text Hp Ht) as S.
  destruct (nth_error (f_att_rows f) i) as [r|] eqn:E; [|rewrite S; auto].
  destruct (row_symbol f i r Hp Ht E) as (k & l & El & Rs & L). rewrite El in S.
  destruct (new_value U P (r_type r) text) as [v|] eqn:Ev; [|rewrite S; auto]. rewrite S. cbn [fst].
  split; [|cbn [set_atts f_heap f_table]; apply table_set; auto; eapply new_value_ok; eauto].
  unfold panel in *. cbn [set_atts f_att_rows f_heap f_table]. rewrite set_nth_map, Hp.

  assert (X : forall (a b : list (ttype * str * symtype * pyval)), (forall n, nth_error a n = nth_error b n) -> a = b).
  { induction a as [|x a IH]; intros [|y b] H; auto; try (specialize (H O); discriminate H).
    pose proof (H O) as H0. injection H0 as ->. f_equal. apply IH. intros n. exact (H (Datatypes.S n)). }
  apply X. intros j. rewrite nth_set.
  assert (Hm : forall h, nth_error (map (fun e : str * loc => symbol_row_of (hget h (snd e))) (f_table f)) i
      = Some (symbol_row_of (hget h l))) by (intros h; now rewrite (map_nth_error _ _ _ El)).
  pose proof (to_good _ _ Ht) as G. assert (Hl : (l < List.length (f_heap f))%nat) by (apply nth_error_In in El; now apply G in El).
  destruct (Nat.eqb i j) eqn:Eij.
  - apply Nat.eqb_eq in Eij as <-. rewrite !Hm, hset_same by auto. f_equal.
    injection Rs as R1 R2 R3 R4. unfold shown_row, symbol_row_of. cbn. now rewrite R1, R2, R3, conv_stored.
  - apply Nat.eqb_neq in Eij. destruct (nth_error (f_table f) j) as [[k' l']|] eqn:Ej.
    + rewrite !(map_nth_error _ _ _ Ej). cbn [snd]. rewrite hset_other; auto. eapply different_objects; eauto.
    + rewrite nth_error_None in Ej. transitivity (@None (ttype * str * symtype * pyval));
        [|symmetry]; apply nth_error_None; now rewrite map_length.
Qed.

(** ** The checker's table after an interpretation *)

Definition filled (h : heap) (tb : table) (s : symbol) : symbol :=
  match st_lookup U tb (sy_name s) with
  | Some l => Sym (sy_name s) (sy_att_name s) (sy_att_type s) (sy_type (hget h l)) (sy_value (hget h l))
  | None => s
  end.
Lemma filled_idem h tb s : filled h tb (filled h tb s) = filled h tb s.
Proof. unfold filled at 2 3. destruct (st_lookup U tb (sy_name s)) eqn:E; unfold filled; cbn; rewrite E; reflexivity. Qed.

Lemma hset_hset h l s t : hset (hset h l s) l t = hset h l t.
Proof. revert l. induction h as [|x h IH]; intros [|l]; cbn; auto. now rewrite IH. Qed.

Lemma copy_spec h tb ct : held h -> forall todo ch, incl todo ct -> good U ch ct ->
  exists ch', copy_values U h tb ch ct todo = Ok ch' /\ good U ch' ct /\
    (forall x, In x (map snd todo) -> hget ch' x = filled h tb (hget ch x)) /\
    (forall x, ~ In x (map snd todo) -> hget ch' x = hget ch x).
Proof.
  intros Hh. induction todo as [|[k l] todo IH]; intros ch Hi Hg; cbn [copy_values].
  - exists ch. split; auto. split; auto. split; [intros x []|auto].
  - assert (Hin : In (k, l) ct) by (apply Hi; now left). assert (Hi' : incl todo ct) by (intros y Hy; apply Hi; now right).
    destruct (proj2 Hg _ _ Hin) as [Hl Hk].
    assert (Step : exists ch1, good U ch1 ct /\ hget ch1 l = filled h tb (hget ch l) /\
      (forall x, x <> l -> hget ch1 x = hget ch x) /\
      copy_values U h tb ch ct ((k, l) :: todo) = copy_values U h tb ch1 ct todo).
    { cbn [copy_values]. unfold st_exists, st_lookup_value, st_lookup_type, filled.
      destruct (st_lookup U tb (sy_name (hget ch l))) as [l'|] eqn:E.
      - cbn [bind option_map]. unfold st_set_value, st_switch_type.
        assert (L : st_lookup U ct (sy_name (hget ch l)) = Some l).
        { unfold st_lookup. rewrite <- Hk. apply in_assoc; auto. apply Hg. }
        rewrite L. cbn [bind]. rewrite hset_same by auto.
        eexists. split; [|split; [|split; [|reflexivity]]].
        + apply good_set; [apply good_set; auto|]. rewrite hset_same; auto.
        + rewrite hset_hset, hset_same by auto. unfold set_sy_type, set_sy_value. cbn. f_equal.
          rewrite conv_stored. now apply held_get.
        + intros x Hx. now rewrite !hset_other by auto.
      - exists ch. auto. }
    destruct Step as (ch1 & G1 & S1 & O1 & Eq). cbn [copy_values] in Eq. rewrite Eq.
    destruct (IH ch1 Hi' G1) as (ch' & E' & G' & A' & B'). exists ch'. split; auto. split; auto. cbn [map snd]. split.
    + intros x [<-|Hx].
      * destruct (in_dec Nat.eq_dec l (map snd todo)) as [Hin'|Hn]; [|now rewrite B', S1].
        now rewrite A', S1, filled_idem.
      * rewrite A' by auto. destruct (Nat.eq_dec x l) as [->|Hne]; [now rewrite S1, filled_idem|now rewrite O1].
    + intros x Hx. rewrite B' by (intros Hy; apply Hx; now right). apply O1. intros ->. apply Hx. now left.
Qed.

End WithPython.
