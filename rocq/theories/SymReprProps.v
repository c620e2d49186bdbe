(** * SymReprProps: repr() of symbols and tables tells them apart (C125) *)

From Coq Require Import NArith ZArith List Bool String Lia.
From Verif Require Import PyBase PyNum Lexer LexProofs Values Ast Symbols AttCert Errors Demo LexDiag Diag Show ShowSpec ShowProofs ShowProofs2 ShowProps SymRepr.
Import ListNotations.
Open Scope Z_scope.

(** ** Specification *)

(** Values that print the same: the same ones, but for the order of the members of a set. *)
Inductive prints_same (P : pytext) : pyval -> pyval -> Prop :=
| ps_same v : prints_same P v v
| ps_list l m : Forall2 (prints_same P) l m -> prints_same P (VList l) (VList m)
| ps_set l m : l <> [] -> m <> [] -> set_order P l = set_order P m -> prints_same P (VSet l) (VSet m).

(** Values of attributes: texts of characters, no NULL, and sets of members that can be hashed. *)
Definition member_ok (v : pyval) : Prop :=
  match v with VNull | VTri _ | VList _ | VSet _ => False | VStr s => Forall code_point s | _ => True end.
Inductive value_ok (P : pytext) : pyval -> Prop :=
| vo_member v : member_ok v -> value_ok P v
| vo_tri t : value_ok P (VTri t)
| vo_list l : Forall (value_ok P) l -> value_ok P (VList l)
| vo_set l : Forall member_ok (set_order P l) -> value_ok P (VSet l).
Definition symbol_ok (P : pytext) (s : symbol) : Prop := Forall code_point (sy_att_name s) /\ value_ok P (sy_value s).

Definition symbol_same (P : pytext) (s s' : symbol) : Prop :=
  sy_att_name s = sy_att_name s' /\ sy_type s = sy_type s' /\ sy_att_type s = sy_att_type s' /\ prints_same P (sy_value s) (sy_value s').

(** ** Proofs *)

Section WithPython.
Variable printable : N -> bool.
Variable P : pytext.
Variable null_text : str.
Hypothesis FT : float_texts P.
Notation scalar_repr := (scalar_repr printable P null_text).
Notation value_repr := (value_repr printable P null_text).

(** What may follow a value. *)
Definition ends (x : str) : Prop := match x with c :: _ => (c = 41 \/ c = 44 \/ c = 93 \/ c = 125)%N | [] => False end.
Lemma ends_number x : ends x -> stops number_char x.
Proof. destruct x as [|c x]; [intros []|]. cbn. unfold number_char. lia. Qed.

(** The first character tells the kind of a value. *)
Definition tag (c : N) : nat :=
  if (c =? 78)%N then 1 else if (c =? 84)%N then 2 else if (c =? 70)%N then 3 else if (c =? 65)%N then 4
  else if (c =? 39)%N || (c =? 34)%N then 5 else if (c =? 91)%N then 7 else if (c =? 123)%N then 8
  else if (c =? 93)%N || (c =? 125)%N then 0 else 6.
Definition vtag (v : pyval) : nat :=
  match v with
  | VNone => 1 | VBool true => 2 | VBool false => 3 | VTri _ => 4 | VStr _ => 5 | VInt _ | VFloat _ | VSet [] => 6
  | VList _ => 7 | VSet _ => 8 | VNull => 9
  end.
Lemma number_tag c : number_char c -> tag c = 6%nat.
Proof.
  unfold number_char, tag. intros H.
  repeat match goal with |- context [(c =? ?k)%N] => destruct (N.eqb_spec c k); [exfalso; lia|] end. reflexivity.
Qed.
Lemma quoted_tag c : quoted c -> tag c = 5%nat.
Proof. intros [->| ->]; reflexivity. Qed.

Lemma value_head v : value_ok P v -> exists c r, value_repr v = c :: r /\ tag c = vtag v.
Proof.
  intros H. destruct v as [|z|f|s|[]|[]| |l|[|u l]]; cbn [SymRepr.value_repr SymRepr.scalar_repr vtag];
  try (eexists _, _; split; reflexivity).
  - destruct (Z_head z) as (c & r & -> & D). exists c, r. split; [reflexivity|]. apply number_tag. now apply digit_number.
  - destruct (float_head P FT f) as (c & r & -> & D). exists c, r. split; [reflexivity|]. now apply number_tag.
  - destruct (str_repr_head printable s) as (c & r & -> & D). exists c, r. split; [reflexivity|]. now apply quoted_tag.
  - inversion H as [v M| | |]. destruct M.
Qed.

Lemma ends_inv x : ends x -> x <> [].
Proof. destruct x; [intros []|discriminate]. Qed.

Lemma numbers u v x y : Forall number_char u -> Forall number_char v -> ends x -> ends y -> u ++ x = v ++ y -> u = v /\ x = y.
Proof. intros. apply (span_eq number_char); auto using ends_number. Qed.
Lemma Z_number z : Forall number_char (str_of_Z z).
Proof. eapply Forall_impl; [exact digit_number|apply Z_chars]. Qed.
Lemma empty_set u x y : Forall number_char u -> ends y -> lit "set()" ++ x = u ++ y -> False.
Proof.
  intros F N E. change (lit "set()" ++ x) with ([115; 101; 116]%N ++ 40%N :: 41%N :: x) in E.
  apply (span_eq number_char) in E as [_ E]; auto using ends_number.
  - subst y. cbn in N. lia.
  - do 3 (constructor; [unfold number_char; lia|]). constructor.
  - cbn. unfold number_char. lia.
Qed.

Lemma join_prefix {A} (f : A -> str) (R : A -> A -> Prop) (ok : A -> Prop) k :
  (k = 93 \/ k = 125)%N -> (forall a, ok a -> exists c r, f a = c :: r /\ c <> 93%N /\ c <> 125%N) ->
  forall l, Forall (fun a => forall b x y, ok a -> ok b -> ends x -> ends y -> f a ++ x = f b ++ y -> R a b /\ x = y) l ->
  forall m x y, Forall ok l -> Forall ok m -> join (lit ", ") (map f l) ++ k :: x = join (lit ", ") (map f m) ++ k :: y -> Forall2 R l m /\ x = y.
Proof.
  intros Hk Hd.
  assert (NB : forall a z w, ok a -> f a ++ z = k :: w -> False).
  { intros a z w O K. destruct (Hd a O) as (c & r & E & H1 & H2). rewrite E in K. injection K as -> _. lia. }
  assert (EK : forall z, ends (k :: z)) by (intros z; cbn; lia).
  induction 1 as [|a l Ha _ IH]; intros [|b m] x y A' B E; cbn [map] in E; rewrite ?join_cons, <- ?app_assoc in E; inversion A'; inversion B; subst.
  - injection E as ->. auto.
  - exfalso. cbn [join app] in E. symmetry in E. eapply NB; eauto.
  - exfalso. cbn [join app] in E. eapply NB; eauto.
  - apply Ha in E as [S E]; auto.
    2:{ destruct l; cbn [map]; [apply EK|]. cbn. lia. }
    2:{ destruct m; cbn [map]; [apply EK|]. cbn. lia. }
    destruct l as [|a2 l], m as [|b2 m]; cbn [map] in E, IH; rewrite ?lit_cs in E; cbn [app] in E.
    + injection E as ->. auto.
    + injection E as E _. lia.
    + injection E as E _. lia.
    + injection E as E. apply (IH (b2 :: m)) in E as [F ->]; auto.
Qed.

Lemma same_tag v w x y : value_ok P v -> value_ok P w -> value_repr v ++ x = value_repr w ++ y -> vtag v = vtag w.
Proof.
  intros V W E. destruct (value_head v V) as (c & r & Ec & T). destruct (value_head w W) as (d & s & Ed & T').
  rewrite Ec, Ed in E. injection E as -> _. congruence.
Qed.

Lemma member_value v : member_ok v -> value_repr v = scalar_repr v.
Proof. destruct v; try reflexivity; intros []. Qed.
Lemma member_prefix v w x y : member_ok v -> member_ok w -> ends x -> ends y -> scalar_repr v ++ x = scalar_repr w ++ y -> v = w /\ x = y.
Proof.
  intros V W X Y E.
  assert (T : vtag v = vtag w).
  { apply (same_tag v w x y); try (now apply vo_member). now rewrite !member_value. }
  destruct v as [|z|f|s|[]|t| |l|l]; try (destruct V; fail); destruct w as [|z'|f'|s'|[]|t'| |l'|l']; try (destruct W; fail); try discriminate T;
  cbn [SymRepr.scalar_repr] in E; try (apply app_inv_head in E; auto; fail).
  - apply numbers in E as [E ->]; auto using Z_number. apply Z_inj in E. subst. auto.
  - exfalso. apply numbers in E as [E _]; auto using Z_number, (ft_chars P FT). apply (ft_mark P FT f'). rewrite <- E. apply Z_chars.
  - exfalso. apply numbers in E as [E _]; auto using Z_number, (ft_chars P FT). apply (ft_mark P FT f). rewrite E. apply Z_chars.
  - apply numbers in E as [E ->]; auto using (ft_chars P FT). apply (ft_inj P FT) in E. subst. auto.
  - apply str_repr_prefix in E as [-> ->]; auto.
Qed.

Lemma tag_close c n : tag c = n -> n <> 0%nat -> c <> 93%N /\ c <> 125%N.
Proof. intros T N. split; intros ->; cbn in T; congruence. Qed.
Lemma vtag_zero v : vtag v <> 0%nat.
Proof. destruct v as [| | | |[]| | | |[|]]; discriminate. Qed.

Lemma members_prefix l m x y : Forall member_ok l -> Forall member_ok m ->
  join (lit ", ") (map scalar_repr l) ++ 125%N :: x = join (lit ", ") (map scalar_repr m) ++ 125%N :: y -> l = m /\ x = y.
Proof.
  intros L M E. apply (join_prefix scalar_repr eq member_ok) in E as [E ->]; auto.
  - split; [|reflexivity]. clear -E. induction E; congruence.
  - intros a O. rewrite <- member_value by exact O. destruct (value_head a (vo_member P a O)) as (c & r & -> & T).
    exists c, r. split; [reflexivity|]. eapply tag_close; [exact T|apply vtag_zero].
  - apply Forall_forall. intros a _ b x' y'. apply member_prefix.
Qed.

Lemma pv_ind (Q : pyval -> Prop) : (forall v, match v with VList l => Forall Q l | _ => True end -> Q v) -> forall v, Q v.
Proof.
  intros H. fix go 1. intros v. apply H. destruct v as [| | | | | | |l|]; try exact I. induction l as [|a l IH]; constructor; [apply go|exact IH].
Qed.

Lemma list_ok l : value_ok P (VList l) -> Forall (value_ok P) l.
Proof. intros H. inversion H as [v M| | |]; subst; [destruct M|assumption]. Qed.
Lemma set_ok l : value_ok P (VSet l) -> Forall member_ok (set_order P l).
Proof. intros H. inversion H as [v M| | |]; subst; [destruct M|assumption]. Qed.

Lemma value_prefix : forall v w x y, value_ok P v -> value_ok P w -> ends x -> ends y ->
  value_repr v ++ x = value_repr w ++ y -> prints_same P v w /\ x = y.
Proof.
  induction v as [v IH] using pv_ind. intros w x y V W X Y E. pose proof (same_tag v w x y V W E) as T.
  assert (M : member_ok v -> member_ok w -> prints_same P v w /\ x = y).
  { intros A B. rewrite !member_value in E by assumption. apply member_prefix in E as [-> ->]; auto. split; [apply ps_same|reflexivity]. }
  assert (N : forall u, value_ok P u -> match u with VStr _ | VInt _ | VFloat _ | VBool _ | VNone => member_ok u | _ => True end).
  { intros u O. inversion O as [u' A| | |]; subst; try exact I. destruct u; auto. }
  pose proof (N v V) as Nv. pose proof (N w W) as Nw.
  destruct v as [|z|f|s|[]|t| |l|[|u l]]; destruct w as [|z'|f'|s'|[]|t'| |l'|[|u' l']]; try discriminate T; auto.
  - exfalso. symmetry in E. eapply (empty_set (str_of_Z _)); [| |exact E]; auto using Z_number.
  - exfalso. symmetry in E. eapply (empty_set (show_float P _)); [| |exact E]; auto using (ft_chars P FT).
  - destruct t, t'; cbn [SymRepr.value_repr SymRepr.scalar_repr tri_repr] in E; try (apply app_inv_head in E; subst; split; [apply ps_same|reflexivity]); exfalso; vm_compute in E; discriminate E.
  - inversion V as [v' A| | |]. destruct A.
  - cbn [SymRepr.value_repr] in E. injection E as E. rewrite <- !app_assoc in E.
    apply (join_prefix value_repr (prints_same P) (value_ok P) 93%N) in E as [E ->]; auto using list_ok.
    + split; [now apply ps_list|reflexivity].
    + intros a O. destruct (value_head a O) as (c & r & -> & Ta). exists c, r. split; [reflexivity|]. eapply tag_close; [exact Ta|apply vtag_zero].
  - exfalso. eapply (empty_set (str_of_Z _)); [| |exact E]; auto using Z_number.
  - exfalso. eapply (empty_set (show_float P _)); [| |exact E]; auto using (ft_chars P FT).
  - cbn [SymRepr.value_repr] in E. apply app_inv_head in E. split; [apply ps_same|exact E].
  - cbn [SymRepr.value_repr] in E. injection E as E. rewrite <- !app_assoc in E.
    apply members_prefix in E as [E ->]; auto using set_ok. split; [|reflexivity]. apply ps_set; [discriminate|discriminate|exact E].
Qed.

Lemma value_same : forall v w, prints_same P v w -> value_repr v = value_repr w.
Proof.
  induction v as [v IH] using pv_ind. intros w S. destruct S as [v|l m F|l m L M S]; [reflexivity| |].
  - cbn [SymRepr.value_repr]. do 3 f_equal. induction F as [|a b l m R F IHF]; [reflexivity|]. inversion IH as [|? ? Ha IHl]; subst. cbn [map]. f_equal; auto.
  - destruct l; [congruence|]. destruct m; [congruence|]. cbn [SymRepr.value_repr]. now rewrite S.
Qed.

(** ** Symbols and tables *)

Lemma symtype_prefix a b x y : symtype_repr a ++ x = symtype_repr b ++ y -> a = b /\ x = y.
Proof. destruct a, b; intros E; try (apply app_inv_head in E; subst; auto; fail); vm_compute in E; discriminate E. Qed.
Lemma ttype_prefix a b x y : ttype_repr a ++ x = ttype_repr b ++ y -> a = b /\ x = y.
Proof.
  intros E. unfold ttype_repr, enum_repr in E. rewrite <- !app_assoc in E. do 3 apply app_inv_head in E.
  assert (T : a = b).
  { apply (span_eq name_char) in E as [E _]; auto using type_name_chars; [now apply type_name_inj| |]; cbn; unfold name_char; lia. }
  subst b. split; [reflexivity|]. do 4 apply app_inv_head in E. exact E.
Qed.

Lemma symbol_prefix s s' x y : symbol_ok P s -> symbol_ok P s' ->
  symbol_repr printable P null_text s ++ x = symbol_repr printable P null_text s' ++ y -> symbol_same P s s' /\ x = y.
Proof.
  intros [N V] [N' V'] E. unfold symbol_repr in E. rewrite <- !app_assoc in E. apply app_inv_head in E.
  apply str_repr_prefix in E as [E1 E]; auto. apply app_inv_head in E. apply symtype_prefix in E as [E2 E]. apply app_inv_head in E.
  apply ttype_prefix in E as [E3 E]. apply app_inv_head in E. apply value_prefix in E as [E4 E]; auto; try (cbn; lia).
  injection E as ->. split; [|reflexivity]. repeat split; auto.
Qed.

End WithPython.

(** C125.  repr() of two symbols is the same exactly if attribute name, type, kind of attribute and
    value are, whatever characters name and value contain. *)
Theorem C125_symbol (printable : N -> bool) (P : pytext) (null_text : str) (s s' : symbol) :
  float_texts P -> symbol_ok P s -> symbol_ok P s' ->
  (symbol_repr printable P null_text s = symbol_repr printable P null_text s' <-> symbol_same P s s').
Proof.
  intros FT O O'. split.
  - intros E. apply (f_equal (fun x => x ++ [])) in E. now apply symbol_prefix in E as [E _].
  - intros (E1 & E2 & E3 & E4). unfold symbol_repr. now rewrite E1, E2, E3, (value_same printable P null_text _ _ E4).
Qed.
Print Assumptions C125_symbol.

(** repr() of two tables is the same exactly if they have the same keys in the same order, with
    symbols that repr() does not tell apart. *)
Theorem C125_table (printable : N -> bool) (P : pytext) (null_text : str) (h h' : heap) (tb tb' : table) :
  float_texts P ->
  Forall (fun e => Forall code_point (fst e) /\ symbol_ok P (hget h (snd e))) tb ->
  Forall (fun e => Forall code_point (fst e) /\ symbol_ok P (hget h' (snd e))) tb' ->
  (table_repr printable P null_text h tb = table_repr printable P null_text h' tb' <->
   Forall2 (fun e e' => fst e = fst e' /\ symbol_same P (hget h (snd e)) (hget h' (snd e'))) tb tb').
Proof.
  intros FT F F'. pose (f := fun e : str * symbol => str_repr printable (fst e) ++ lit ": " ++ symbol_repr printable P null_text (snd e)).
  assert (M : forall h tb, map (entry_repr printable P null_text h) tb = map f (map (fun e => (fst e, hget h (snd e))) tb)).
  { intros h0 t. rewrite map_map. reflexivity. }
  pose (ok := fun e : str * symbol => Forall code_point (fst e) /\ symbol_ok P (snd e)).
  pose (R := fun e e' : str * symbol => fst e = fst e' /\ symbol_same P (snd e) (snd e')).
  unfold table_repr. rewrite !M.
  assert (G : forall h tb, Forall (fun e => Forall code_point (fst e) /\ symbol_ok P (hget h (snd e))) tb -> Forall ok (map (fun e : str * loc => (fst e, hget h (snd e))) tb)).
  { intros h0 t H. induction H; constructor; auto. }
  assert (S : forall l m : table, Forall2 (fun e e' => fst e = fst e' /\ symbol_same P (hget h (snd e)) (hget h' (snd e'))) l m <->
    Forall2 R (map (fun e => (fst e, hget h (snd e))) l) (map (fun e => (fst e, hget h' (snd e))) m)).
  { intros l m. split; [intros H; induction H; constructor; auto|].
    revert m. induction l as [|a l IH]; intros [|b m] H; cbn [map] in H; inversion H; subst; constructor; auto. }
  rewrite S. split.
  - intros E. apply app_inv_head in E.
    apply (join_prefix f R ok 125%N) in E as [E _]; auto.
    + intros a _. destruct (str_repr_head printable (fst a)) as (q & r & Eq & Q). exists q. unfold f. rewrite Eq. eexists. split; [reflexivity|].
      revert Q. unfold quoted. lia.
    + apply Forall_forall. intros a _ b x y [A1 A2] [B1 B2] _ _ K. unfold f in K. rewrite <- !app_assoc in K.
      apply str_repr_prefix in K as [K1 K]; auto. apply app_inv_head in K. apply symbol_prefix in K as [K2 ->]; auto. split; [split; auto|reflexivity].
  - intros H. do 2 f_equal. f_equal. induction H as [|a b l m [E1 E2] H IH]; [reflexivity|]. cbn [map]. f_equal; [|exact IH].
    unfold f. rewrite E1. do 2 f_equal. destruct E2 as (X1 & X2 & X3 & X4). unfold symbol_repr. now rewrite X1, X2, X3, (value_same printable P null_text _ _ X4).
Qed.
Print Assumptions C125_table.

(** Symbols that are made with the same repr() are equal for ==, *)
Theorem C125_equal (U : unicode) (printable : N -> bool) (P : pytext) (null_text : str) (n n' : str) (t t' : option ttype) (ty ty' : option symtype) (v v' : pyval) :
  float_texts P -> symbol_ok P (symbol_new U n t ty v) -> symbol_ok P (symbol_new U n' t' ty' v') ->
  symbol_repr printable P null_text (symbol_new U n t ty v) = symbol_repr printable P null_text (symbol_new U n' t' ty' v') ->
  symbol_eqb (symbol_new U n t ty v) (symbol_new U n' t' ty' v') = true.
Proof.
  intros FT O O' E. apply C125_symbol in E as (E1 & E2 & E3 & _); auto. unfold symbol_eqb. rewrite E2.
  assert (X : sy_name (symbol_new U n t ty v) = sy_name (symbol_new U n' t' ty' v')).
  { unfold symbol_new in *. cbn [sy_name sy_att_name sy_att_type] in *. rewrite E1. f_equal.
    destruct t as [[]|], t' as [[]|]; cbn in *; try reflexivity; discriminate E3. }
  rewrite X. apply andb_true_iff. split; [now apply str_eqb_eq|]. unfold symtype_eqb. apply N.eqb_refl.
Qed.
Print Assumptions C125_equal.

(** and sets that print the same have the same members. *)
Theorem C125_members (printable : N -> bool) (P : pytext) (null_text : str) (s s' : symbol) (l m : list pyval) :
  float_texts P -> symbol_ok P s -> symbol_ok P s' -> sy_value s = VSet l -> sy_value s' = VSet m ->
  (forall x, In x (set_order P l) <-> In x l) -> (forall x, In x (set_order P m) <-> In x m) ->
  symbol_repr printable P null_text s = symbol_repr printable P null_text s' -> forall x, In x l <-> In x m.
Proof.
  intros FT O O' V V' L M E x. apply C125_symbol in E as (_ & _ & _ & E); auto. rewrite V, V' in E.
  inversion E as [|? ?|? ? _ _ S]; subst; [reflexivity|]. now rewrite <- L, S, M.
Qed.
Print Assumptions C125_members.

(** False: that symbols equal for == have the same repr(). *)
Theorem C125_equal_refuted : exists s s', symbol_eqb s s' = true /\ symbol_ok ex_python s /\ symbol_ok ex_python s' /\
  symbol_repr is_uni ex_python [] s <> symbol_repr is_uni ex_python [] s'.
Proof.
  exists (symbol_new ascii_only (lit "age") (Some USR_ATT) (Some ST_INT) (VInt 1)), (symbol_new ascii_only (lit "AGE") (Some USR_ATT) (Some ST_INT) (VInt 2)).
  split; [vm_compute; reflexivity|].
  assert (C : Forall code_point (lit "age")) by (repeat constructor; vm_compute; reflexivity).
  split; [split; [exact C|now apply vo_member]|]. split; [split; [exact C|now apply vo_member]|]. vm_compute. discriminate.
Qed.
Print Assumptions C125_equal_refuted.

(** ** Examples *)

(** The order of the arguments is not that of the constructor: type and kind of attribute are exchanged. *)
Example C125_case : symbol_repr is_uni ex_python [] (symbol_new ascii_only (lit "O'Neil") (Some USR_ATT) (Some ST_SET) (VSet [VStr (lit "a, b"); VInt 3])) =
  lit "Symbol(""o'neil"", <SymbolType.SET: 6>, <TokenType.USR_ATT: 4>, {'a, b', 3})".
Proof. vm_compute. reflexivity. Qed.
Example C125_case_table : table_repr is_uni ex_python []
  [symbol_new ascii_only (lit "x") (Some ENV_ATT) None (VList [VNone; VList []; VSet []]); symbol_new ascii_only (lit "y") None (Some ST_BOOL) (VBool true)]
  [(lit "env.x", 0%nat); (lit "unkown.y", 1%nat)] =
  lit "SymbolTable: <{'env.x': Symbol('x', <SymbolType.UNKNOWN: 5>, <TokenType.ENV_ATT: 6>, [None, [], set()]), 'unkown.y': Symbol('y', <SymbolType.BOOL: 4>, <TokenType.UNK_ATT: 9>, ASTResult.TRUE)}>".
Proof. vm_compute. reflexivity. Qed.
(** Commas and quotes in a name or a member do not deceive: one member or two. *)
Example C125_case_hyp : symbol_ok ex_python (symbol_new ascii_only (lit "x") (Some USR_ATT) (Some ST_SET) (VSet [VStr (lit "a', 'b")])) /\
  symbol_repr is_uni ex_python [] (symbol_new ascii_only (lit "x") (Some USR_ATT) (Some ST_SET) (VSet [VStr (lit "a', 'b")])) <>
  symbol_repr is_uni ex_python [] (symbol_new ascii_only (lit "x") (Some USR_ATT) (Some ST_SET) (VSet [VStr (lit "a"); VStr (lit "b")])).
Proof.
  split; [|vm_compute; discriminate]. split; [repeat constructor; vm_compute; reflexivity|].
  apply vo_set. constructor; [|constructor]. repeat constructor; vm_compute; reflexivity.
Qed.
