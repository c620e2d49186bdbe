(** * SymbolProps: SymbolTable and SymbolTableBuilder (C29, C30) *)

From Coq Require Import NArith ZArith List Bool String Lia.
From Verif Require Import PyBase PyNum Lexer LexSpec LexProofs LexProps Values Ast Symbols.
Import ListNotations.

(** ** C29: any sequence of calls on one table *)

Inductive op : Type :=
| ODefine (att_name : str) (att_type : option ttype) (stype : option symtype) (value : pyval)
| OSetValue (name : str) (v : pyval)
| OSwitchType (name : str) (t : symtype).
(** What the caller gets: a bool, the old type, None, or an exception. *)
Inductive answer : Type := ABool (b : bool) | AType (t : symtype) | ANothing | ARaised (e : exc).

Section C29.
Variable U : unicode.

(** One call: [define(Symbol(...))], [set_value(...)] or [switch_type(...)]. *)
Definition call (st : heap * table) (o : op) : (heap * table) * answer :=
  let '(h, tb) := st in
  match o with
  | ODefine n at_ ty v =>
      let '(h', l) := halloc h (symbol_new U n at_ ty v) in
      let '(tb', b) := st_define U h' tb l in ((h', tb'), ABool b)
  | OSetValue n v =>
      match st_set_value U h tb n v with
      | Ok h' => ((h', tb), ANothing)
      | Err e => (st, ARaised e)
      end
  | OSwitchType n t =>
      match st_switch_type U h tb n t with
      | Ok (h', old) => ((h', tb), AType old)
      | Err e => (st, ARaised e)
      end
  end.
Fixpoint calls (st : heap * table) (l : list op) : (heap * table) * list answer :=
  match l with
  | [] => (st, [])
  | o :: r => let '(st1, a) := call st o in let '(st2, b) := calls st1 r in (st2, a :: b)
  end.

(** Specification: a partial map from lower-cased names to name, kind, type and value. *)
Record entry : Type := Entry { e_att_name : str; e_att_type : ttype; e_type : symtype; e_value : pyval }.
Definition spec := str -> option entry.
Definition upd (m : spec) (k : str) (e : entry) : spec := fun x => if str_eqb x k then Some e else m x.

(** Python bools are stored as ASTResult. *)
Definition stored (v : pyval) : pyval :=
  match v with VBool true => VTri TRUE | VBool false => VTri FALSE | _ => v end.
Definition prefix_of (at_ : option ttype) : str :=
  match at_ with
  | Some USR_ATT => lit "user." | Some OBJ_ATT => lit "object." | Some ENV_ATT => lit "env."
  | Some ADM_ATT => lit "admin." | Some CON_ATT => lit "connect." | _ => lit "unkown."
  end.
Definition full_name (at_ : option ttype) (n : str) : str := prefix_of at_ ++ py_lower U n.
Definition new_entry (n : str) (at_ : option ttype) (ty : option symtype) (v : pyval) : entry :=
  Entry (py_lower U n) (match at_ with Some t => t | None => UNK_ATT end)
        (match ty with Some t => t | None => ST_UNKNOWN end) (stored v).

Definition spec_call (m : spec) (o : op) : spec * answer :=
  match o with
  | ODefine n at_ ty v =>
      let k := py_lower U (full_name at_ n) in
      match m k with
      | Some _ => (m, ABool false)
      | None => (upd m k (new_entry n at_ ty v), ABool true)
      end
  | OSetValue n v =>
      match m (py_lower U n) with
      | Some e => (upd m (py_lower U n) (Entry (e_att_name e) (e_att_type e) (e_type e) (stored v)), ANothing)
      | None => (m, ARaised EGeneric)
      end
  | OSwitchType n t =>
      match m (py_lower U n) with
      | Some e => (upd m (py_lower U n) (Entry (e_att_name e) (e_att_type e) t (e_value e)), AType (e_type e))
      | None => (m, ARaised EGeneric)
      end
  end.
Fixpoint spec_calls (m : spec) (l : list op) : spec * list answer :=
  match l with
  | [] => (m, [])
  | o :: r => let '(m1, a) := spec_call m o in let '(m2, b) := spec_calls m1 r in (m2, a :: b)
  end.

Definition entry_of (s : symbol) : entry := Entry (sy_att_name s) (sy_att_type s) (sy_type s) (sy_value s).

(** Names are looked up under their lower-cased form and different names never share an object. *)
Definition good (h : heap) (tb : table) : Prop :=
  NoDup (map fst tb) /\ forall k l, In (k, l) tb -> (l < List.length h)%nat /\ k = py_lower U (sy_name (hget h l)).
Definition refines (st : heap * table) (m : spec) : Prop :=
  good (fst st) (snd st) /\
  forall k, m k = option_map (fun l => entry_of (hget (fst st) l)) (assoc k (snd st)).

Lemma assoc_in {A} k (l : list (str * A)) v : assoc k l = Some v -> In (k, v) l.
Proof.
  induction l as [|[k' v'] r IH]; cbn; [discriminate|]. destruct (str_eqb k k') eqn:E; auto.
  apply str_eqb_eq in E as ->. intros [= ->]. now left.
Qed.
Lemma assoc_none {A} k (l : list (str * A)) : assoc k l = None <-> ~ In k (map fst l).
Proof.
  induction l as [|[k' v'] r IH]; cbn; [tauto|]. destruct (str_eqb k k') eqn:E.
  - apply str_eqb_eq in E as ->. split; [discriminate|]. intros H. exfalso. auto.
  - rewrite IH. split; [intros H [->|Hi]|]; auto. rewrite str_eqb_refl in E. discriminate.
Qed.
Lemma assoc_app {A} k (l m : list (str * A)) :
  assoc k (l ++ m) = match assoc k l with Some v => Some v | None => assoc k m end.
Proof. induction l as [|[k' v'] r IH]; cbn; auto. destruct (str_eqb k k'); auto. Qed.
Lemma in_assoc {A} k (l : list (str * A)) v : NoDup (map fst l) -> In (k, v) l -> assoc k l = Some v.
Proof.
  induction l as [|[k' v'] r IH]; cbn; [tauto|]. intros Hd [[= -> ->]|Hi].
  - now rewrite str_eqb_refl.
  - inversion Hd as [|? ? Hn Hd']; subst. destruct (str_eqb k k') eqn:E; auto.
    apply str_eqb_eq in E as ->. exfalso. apply Hn. apply in_map_iff. now exists (k', v).
Qed.

Lemma hget_app h s l : (l < List.length h)%nat -> hget (h ++ [s]) l = hget h l.
Proof. intros H. unfold hget. now apply app_nth1. Qed.
Lemma hget_new h s : hget (h ++ [s]) (List.length h) = s.
Proof. unfold hget. rewrite app_nth2, Nat.sub_diag; auto. Qed.
Lemma hset_length h l s : List.length (hset h l s) = List.length h.
Proof. revert l; induction h as [|x r IH]; intros [|l]; cbn; auto. Qed.
Lemma hset_same h l s : (l < List.length h)%nat -> hget (hset h l s) l = s.
Proof.
  revert l; induction h as [|x r IH]; intros [|l] H; cbn in *; try lia; auto.
  apply (IH l). lia.
Qed.
Lemma hset_other h l l' s : l <> l' -> hget (hset h l s) l' = hget h l'.
Proof.
  revert l l'; induction h as [|x r IH]; intros [|l] [|l'] H; cbn; auto; try congruence.
  apply (IH l l'). congruence.
Qed.

Lemma conv_stored v : conv_value v = stored v.
Proof. destruct v as [| | | |b| | | |]; try reflexivity. destruct b; reflexivity. Qed.
Lemma entry_new n at_ ty v : entry_of (symbol_new U n at_ ty v) = new_entry n at_ ty v.
Proof. unfold entry_of, symbol_new, new_entry. cbn. now rewrite conv_stored. Qed.
Lemma name_new n at_ ty v : sy_name (symbol_new U n at_ ty v) = full_name at_ n.
Proof. unfold symbol_new, full_name, var_prefix. destruct at_ as [[]|]; reflexivity. Qed.

(** Changing type or value of one object of a good table. *)
Lemma refines_set h tb m k l s : refines (h, tb) m -> assoc k tb = Some l ->
  sy_name s = sy_name (hget h l) -> refines (hset h l s, tb) (upd m k (entry_of s)).
Proof.
  intros [[Hd Hg] Hm] Hl Hn. cbn [fst snd] in *. pose proof (assoc_in _ _ _ Hl) as Hi. destruct (Hg _ _ Hi) as [Hlt Hk].
  split; [split|]; cbn [fst snd]; auto.
  - intros k' l' Hi'. rewrite hset_length. destruct (Hg _ _ Hi') as [Hlt' Hk']. split; auto.
    destruct (Nat.eq_dec l l') as [<-|Hne]; [rewrite hset_same by auto; congruence|now rewrite hset_other].
  - intros x. unfold upd. destruct (str_eqb x k) eqn:E.
    + apply str_eqb_eq in E as ->. rewrite Hl. cbn. now rewrite hset_same.
    + rewrite Hm. destruct (assoc x tb) as [l'|] eqn:E'; auto. cbn. rewrite hset_other; auto.
      intros <-. apply assoc_in in E'. destruct (Hg _ _ E') as [_ Hx]. rewrite <- Hk in Hx. subst x.
      rewrite str_eqb_refl in E. discriminate.
Qed.

Lemma call_refines st m o : refines st m ->
  refines (fst (call st o)) (fst (spec_call m o)) /\ snd (call st o) = snd (spec_call m o).
Proof.
  destruct st as [h tb]. intros R. destruct o as [n at_ ty v|n v|n t]; cbn [call spec_call].
  - unfold halloc, st_define. rewrite hget_new, name_new.
    pose proof R as [[Hd Hg] Hm]. cbn [fst snd] in *. rewrite Hm.
    assert (Hk : forall k l, assoc k tb = Some l -> hget (h ++ [symbol_new U n at_ ty v]) l = hget h l).
    { intros k l Hi. apply assoc_in in Hi. destruct (Hg _ _ Hi). now apply hget_app. }
    assert (Hl : forall k l, In (k, l) tb -> (l < List.length (h ++ [symbol_new U n at_ ty v]))%nat /\
              k = py_lower U (sy_name (hget (h ++ [symbol_new U n at_ ty v]) l))).
    { intros k l Hi. destruct (Hg _ _ Hi). rewrite app_length, hget_app by auto. split; auto. lia. }
    set (k := py_lower U (full_name at_ n)).
    destruct (assoc k tb) as [l|] eqn:E; cbn [option_map fst snd]; split; auto.
    + split; [split|]; auto. intros x. rewrite Hm. cbn [fst snd]. destruct (assoc x tb) eqn:Ex; auto. cbn. f_equal. f_equal.
      symmetry. eauto.
    + split; [split|]; cbn [fst snd].
      * rewrite map_app. cbn. apply assoc_none in E. clear - Hd E. induction (map fst tb) as [|y r IH]; cbn.
        -- repeat constructor. auto.
        -- inversion Hd; subst. constructor; [|apply IH; auto; intros Hi; apply E; now right].
           rewrite in_app_iff. intros [Hi|[Hi|[]]]; auto. subst y. apply E. now left.
      * intros x l Hi. apply in_app_iff in Hi as [Hi|[[= <- <-]|[]]]; auto.
        rewrite hget_new, app_length, name_new. cbn. split; auto. lia.
      * intros x. unfold upd. rewrite assoc_app. destruct (str_eqb x k) eqn:Ex.
        -- apply str_eqb_eq in Ex as ->. rewrite E. cbn [assoc]. rewrite str_eqb_refl. cbn.
           now rewrite hget_new, entry_new.
        -- cbn [assoc]. rewrite Ex, Hm. destruct (assoc x tb) eqn:Ex'; auto. cbn. do 2 f_equal. symmetry. eauto.
  - unfold st_set_value, st_lookup. pose proof R as [_ Hm]. cbn [fst snd] in Hm. rewrite Hm.
    destruct (assoc (py_lower U n) tb) as [l|] eqn:E; cbn [option_map fst snd]; auto. split; auto.
    replace (Entry _ _ _ _) with (entry_of (set_sy_value (hget h l) v)).
    + now apply refines_set.
    + unfold entry_of, set_sy_value. cbn. now rewrite conv_stored.
  - unfold st_switch_type, st_lookup. pose proof R as [_ Hm]. cbn [fst snd] in Hm. rewrite Hm.
    destruct (assoc (py_lower U n) tb) as [l|] eqn:E; cbn [option_map fst snd]; auto. split; auto.
    replace (Entry _ _ _ _) with (entry_of (set_sy_type (hget h l) t)) by reflexivity.
    now apply refines_set.
Qed.

Lemma calls_refines l : forall st m, refines st m ->
  refines (fst (calls st l)) (fst (spec_calls m l)) /\ snd (calls st l) = snd (spec_calls m l).
Proof.
  induction l as [|o r IH]; intros st m R; [split; auto|]. cbn [calls spec_calls].
  destruct (call_refines st m o R) as [R1 A1].
  destruct (call st o) as [st1 a1], (spec_call m o) as [m1 b1]. cbn [fst snd] in *. subst b1.
  destruct (IH st1 m1 R1) as [R2 A2]. destruct (calls st1 r), (spec_calls m1 r). cbn [fst snd] in *. subst. auto.
Qed.

Definition empty : spec := fun _ => None.
Lemma refines_empty h : refines (h, []) empty.
Proof. split; [split; [constructor|intros ? ? []]|reflexivity]. Qed.

(** Any calls on an empty table: answers and every kind of lookup are those of the map. *)
Theorem C29_map (h : heap) (l : list op) (name : str) :
  let '(h', tb) := fst (calls (h, []) l) in
  let '(m, answers) := spec_calls empty l in
  snd (calls (h, []) l) = answers /\
  st_exists U tb name = (match m (py_lower U name) with Some _ => true | None => false end) /\
  st_lookup_type U h' tb name = option_map e_type (m (py_lower U name)) /\
  st_lookup_att_type U h' tb name = option_map e_att_type (m (py_lower U name)) /\
  st_lookup_att_name U h' tb name = option_map e_att_name (m (py_lower U name)) /\
  st_lookup_value U h' tb name =
    (match m (py_lower U name) with Some e => Ok (e_value e) | None => Err EGeneric end).
Proof.
  destruct (calls_refines l (h, []) empty (refines_empty h)) as [[_ Hm] Ha].
  destruct (calls (h, []) l) as [[h' tb] a]. destruct (spec_calls empty l) as [m b]. cbn [fst snd] in *.
  split; auto. unfold st_exists, st_lookup_type, st_lookup_att_type, st_lookup_att_name, st_lookup_value, st_lookup.
  rewrite Hm. destruct (assoc (py_lower U name) tb); cbn; auto 10.
Qed.

(** Failed calls change nothing, and objects that are not in the table are never changed. *)
Theorem C29_failures (h : heap) (tb : table) (o : op) :
  match call (h, tb) o with
  | ((h', tb'), ABool false) => tb' = tb /\ (forall l, (l < List.length h)%nat -> hget h' l = hget h l)
  | ((h', tb'), ARaised e) => h' = h /\ tb' = tb /\ e = EGeneric
  | _ => True
  end.
Proof.
  destruct o as [n at_ ty v|n v|n t]; cbn [call].
  - unfold halloc, st_define. destruct (assoc _ tb); auto. split; auto. intros. now apply hget_app.
  - unfold st_set_value. destruct (st_lookup U tb n); auto.
  - unfold st_switch_type. destruct (st_lookup U tb n); auto.
Qed.

(** *** The same, over histories *)

Definition defines (k : str) (o : op) : Prop :=
  match o with ODefine n at_ _ _ => py_lower U (full_name at_ n) = k | _ => False end.
Definition sets_value (k : str) (o : op) : Prop :=
  match o with OSetValue n _ => py_lower U n = k | _ => False end.
Definition sets_type (k : str) (o : op) : Prop :=
  match o with OSwitchType n _ => py_lower U n = k | _ => False end.

Lemma spec_app l1 : forall l2 m, fst (spec_calls m (l1 ++ l2)) = fst (spec_calls (fst (spec_calls m l1)) l2).
Proof.
  induction l1 as [|o r IH]; intros l2 m; auto. cbn [app spec_calls]. destruct (spec_call m o) as [m1 a].
  specialize (IH l2 m1). destruct (spec_calls m1 (r ++ l2)), (spec_calls m1 r). cbn in *. auto.
Qed.

(** How one call changes the entry of a name. *)
Lemma spec_call_at m o k :
  (fst (spec_call m o) k = None <-> m k = None /\ ~ defines k o) /\
  forall e, m k = Some e ->
    exists e', fst (spec_call m o) k = Some e' /\
      e_att_name e' = e_att_name e /\ e_att_type e' = e_att_type e /\
      (e_value e' = e_value e \/ sets_value k o) /\ (e_type e' = e_type e \/ sets_type k o).
Proof.
  destruct o as [n at_ ty v|n v|n t]; cbn [spec_call defines sets_value sets_type].
  - set (j := py_lower U (full_name at_ n)). destruct (m j) as [e0|] eqn:E; cbn [fst].
    + split; [|intros e He; exists e; auto 6]. split; [|tauto]. intros H. split; auto. intros ->. congruence.
    + unfold upd. destruct (str_eqb k j) eqn:Ek.
      * apply str_eqb_eq in Ek as ->. split; [|intros e He; congruence].
        split; [discriminate|]. intros [_ H]. now destruct H.
      * split; [|intros e He; exists e; auto 6]. split; [|tauto]. intros H. split; auto. intros ->.
        rewrite str_eqb_refl in Ek. discriminate.
  - destruct (m (py_lower U n)) as [e0|] eqn:E; cbn [fst].
    + unfold upd. destruct (str_eqb k (py_lower U n)) eqn:Ek.
      * apply str_eqb_eq in Ek as ->. split; [split; [discriminate|intros [H _]; congruence]|].
        intros e He. rewrite E in He. injection He as <-. eexists. split; [reflexivity|]. cbn. auto 6.
      * split; [tauto|intros e He; exists e; auto 6].
    + split; [tauto|intros e He; exists e; auto 6].
  - destruct (m (py_lower U n)) as [e0|] eqn:E; cbn [fst].
    + unfold upd. destruct (str_eqb k (py_lower U n)) eqn:Ek.
      * apply str_eqb_eq in Ek as ->. split; [split; [discriminate|intros [H _]; congruence]|].
        intros e He. rewrite E in He. injection He as <-. eexists. split; [reflexivity|]. cbn. auto 6.
      * split; [tauto|intros e He; exists e; auto 6].
    + split; [tauto|intros e He; exists e; auto 6].
Qed.

Lemma spec_none l : forall m k, fst (spec_calls m l) k = None <-> m k = None /\ ~ Exists (defines k) l.
Proof.
  induction l as [|o r IH]; intros m k; cbn [spec_calls].
  - cbn. split; [|tauto]. intros H. split; auto. intros H'. inversion H'.
  - pose proof (spec_call_at m o k) as [H1 _]. destruct (spec_call m o) as [m1 a]. specialize (IH m1 k).
    destruct (spec_calls m1 r) as [m2 b]. cbn [fst] in *. rewrite IH, H1. rewrite Exists_cons. tauto.
Qed.
Lemma spec_keeps l : forall m k e, m k = Some e ->
  exists e', fst (spec_calls m l) k = Some e' /\
    e_att_name e' = e_att_name e /\ e_att_type e' = e_att_type e /\
    (e_value e' = e_value e \/ Exists (sets_value k) l) /\ (e_type e' = e_type e \/ Exists (sets_type k) l).
Proof.
  induction l as [|o r IH]; intros m k e He; cbn [spec_calls]; [exists e; auto 6|].
  destruct (spec_call_at m o k) as [_ H]. destruct (H e He) as (e1 & E1 & N1 & A1 & V1 & T1).
  destruct (spec_call m o) as [m1 a]. cbn [fst] in E1. destruct (IH m1 k e1 E1) as (e2 & E2 & N2 & A2 & V2 & T2).
  destruct (spec_calls m1 r) as [m2 b]. cbn [fst] in *. exists e2. rewrite !Exists_cons, E2, N2, A2, N1, A1. 
  repeat split; auto.
  - destruct V2 as [V2|V2], V1 as [V1|V1]; auto. left. congruence.
  - destruct T2 as [T2|T2], T1 as [T1|T1]; auto. left. congruence.
Qed.

(** A define succeeds exactly when no earlier call defined that name. *)
Theorem C29_first_wins (h : heap) (l : list op) (n : str) (at_ : option ttype) (ty : option symtype) (v : pyval) :
  let k := py_lower U (full_name at_ n) in
  snd (call (fst (calls (h, []) l)) (ODefine n at_ ty v)) = ABool true <-> ~ Exists (defines k) l.
Proof.
  cbn zeta. destruct (calls_refines l (h, []) empty (refines_empty h)) as [R _].
  apply (call_refines _ _ (ODefine n at_ ty v)) in R as [_ ->]. cbn [spec_call].
  pose proof (spec_none l empty (py_lower U (full_name at_ n))) as S.
  destruct (fst (spec_calls empty l) (py_lower U (full_name at_ n))) eqn:E; cbn [snd].
  - split; [discriminate|]. intros H. destruct S as [_ S]. discriminate S. auto.
  - split; auto. intros _. now apply S.
Qed.

(** An attribute has the value last given to it: the one it was defined with, if its
    first definition is followed by no set_value for it, and the last set_value otherwise. *)
Theorem C29_last_value (h : heap) (l1 l2 : list op) (o : op) (name : str) (v : pyval) :
  let k := py_lower U name in
  (exists n at_ ty, o = ODefine n at_ ty v /\ py_lower U (full_name at_ n) = k /\ ~ Exists (defines k) l1) \/
  (exists n, o = OSetValue n v /\ py_lower U n = k /\ Exists (defines k) l1) ->
  ~ Exists (sets_value k) l2 ->
  let '(h', tb) := fst (calls (h, []) (l1 ++ o :: l2)) in st_lookup_value U h' tb name = Ok (stored v).
Proof.
  cbn zeta. intros Ho Hn. pose proof (C29_map h (l1 ++ o :: l2) name) as M.
  destruct (fst (calls (h, []) (l1 ++ o :: l2))) as [h' tb].
  pose proof (spec_app l1 (o :: l2) empty) as A. destruct (spec_calls empty (l1 ++ o :: l2)) as [m a].
  cbn [fst] in A. destruct M as (_ & _ & _ & _ & _ & ->). subst m. set (m := fst (spec_calls empty l1)).
  cbn [spec_calls]. destruct (spec_call m o) as [m1 a1] eqn:E1.
  assert (E : exists e, m1 (py_lower U name) = Some e /\ e_value e = stored v).
  { destruct Ho as [(n & at_ & ty & -> & Hk & Hx)|(n & -> & Hk & Hx)]; cbn [spec_call] in E1; rewrite Hk in E1.
    - assert (Hm : m (py_lower U name) = None) by (apply spec_none; auto). rewrite Hm in E1. injection E1 as <- _.
      unfold upd. rewrite str_eqb_refl. eexists. split; reflexivity.
    - destruct (m (py_lower U name)) as [e|] eqn:Em.
      + injection E1 as <- _. unfold upd. rewrite str_eqb_refl. eexists. split; reflexivity.
      + apply spec_none in Em as [_ Em]. tauto. }
  destruct E as (e & He & Hv). destruct (spec_keeps l2 m1 _ e He) as (e' & He' & _ & _ & [Hv'|Hv'] & _); [|tauto].
  destruct (spec_calls m1 l2) as [m2 a2]. cbn [fst] in *. rewrite He'. congruence.
Qed.

(** Likewise for its type. *)
Theorem C29_last_type (h : heap) (l1 l2 : list op) (o : op) (name : str) (t : symtype) :
  let k := py_lower U name in
  (exists n at_ v, o = ODefine n at_ (Some t) v /\ py_lower U (full_name at_ n) = k /\ ~ Exists (defines k) l1) \/
  (exists n, o = OSwitchType n t /\ py_lower U n = k /\ Exists (defines k) l1) ->
  ~ Exists (sets_type k) l2 ->
  let '(h', tb) := fst (calls (h, []) (l1 ++ o :: l2)) in st_lookup_type U h' tb name = Some t.
Proof.
  cbn zeta. intros Ho Hn. pose proof (C29_map h (l1 ++ o :: l2) name) as M.
  destruct (fst (calls (h, []) (l1 ++ o :: l2))) as [h' tb].
  pose proof (spec_app l1 (o :: l2) empty) as A. destruct (spec_calls empty (l1 ++ o :: l2)) as [m a].
  cbn [fst] in A. destruct M as (_ & _ & -> & _). subst m. set (m := fst (spec_calls empty l1)).
  cbn [spec_calls]. destruct (spec_call m o) as [m1 a1] eqn:E1.
  assert (E : exists e, m1 (py_lower U name) = Some e /\ e_type e = t).
  { destruct Ho as [(n & at_ & v & -> & Hk & Hx)|(n & -> & Hk & Hx)]; cbn [spec_call] in E1; rewrite Hk in E1.
    - assert (Hm : m (py_lower U name) = None) by (apply spec_none; auto). rewrite Hm in E1. injection E1 as <- _.
      unfold upd. rewrite str_eqb_refl. eexists. split; reflexivity.
    - destruct (m (py_lower U name)) as [e|] eqn:Em.
      + injection E1 as <- _. unfold upd. rewrite str_eqb_refl. eexists. split; reflexivity.
      + apply spec_none in Em as [_ Em]. tauto. }
  destruct E as (e & He & Hv). destruct (spec_keeps l2 m1 _ e He) as (e' & He' & _ & _ & _ & [Hv'|Hv']); [|tauto].
  destruct (spec_calls m1 l2) as [m2 a2]. cbn [fst] in *. rewrite He'. cbn. congruence.
Qed.

(** Tables that hold the same Symbol object share it: a value set through one is read
    through the other. *)
Theorem C29_shared (h h' : heap) (tb1 tb2 : table) (n1 n2 : str) (v : pyval) (l : loc) :
  (l < List.length h)%nat -> st_lookup U tb1 n1 = Some l -> st_lookup U tb2 n2 = Some l ->
  st_set_value U h tb1 n1 v = Ok h' -> st_lookup_value U h' tb2 n2 = Ok (stored v).
Proof.
  intros Hl H1 H2 Hs. unfold st_set_value in Hs. rewrite H1 in Hs. injection Hs as <-.
  unfold st_lookup_value. rewrite H2, hset_same by auto. cbn. now rewrite conv_stored.
Qed.
End C29.

(** ** C30 *)

Section C30.
Variable U : unicode.

(** A full attribute name: a category in lower case, a dot, and any name. *)
Definition full_att (full : str) (ty : ttype) (n : str) : Prop :=
  exists c, category c ty /\ full = c ++ lit "." ++ n.

(** The five dictionaries of a builder. *)
Definition dict_of (b : builder) (ty : ttype) : list (str * pyval) :=
  match ty with
  | USR_ATT => b_user b | OBJ_ATT => b_object b | ENV_ATT => b_env b
  | ADM_ATT => b_admin b | CON_ATT => b_connect b | _ => []
  end.
Definition cats : list ttype := [USR_ATT; OBJ_ATT; ENV_ATT; ADM_ATT; CON_ATT].

Lemma split_dot_app c n : ~ In 46%N c -> split_dot (c ++ lit "." ++ n) = (c, Some n).
Proof.
  induction c as [|x c IH]; intros H; [reflexivity|]. cbn [app split_dot].
  destruct (x =? 46)%N eqn:E; [apply N.eqb_eq in E; exfalso; apply H; now left|].
  cbn [app] in IH. rewrite IH; auto. intros Hi. apply H. now right.
Qed.
Lemma split_dot_some s c n : split_dot s = (c, Some n) -> s = c ++ lit "." ++ n /\ ~ In 46%N c.
Proof.
  revert c n. induction s as [|x s IH]; intros c n; cbn [split_dot]; [discriminate|].
  destruct (x =? 46)%N eqn:E.
  - apply N.eqb_eq in E as ->. intros [= <- <-]. split; auto.
  - destruct (split_dot s) as [a o]. intros [= <- ->]. destruct (IH a n eq_refl) as [-> Hn]. split; auto.
    intros [->|Hi]; auto. discriminate.
Qed.
Lemma split_dot_none s c : split_dot s = (c, None) -> s = c /\ ~ In 46%N s.
Proof.
  revert c. induction s as [|x s IH]; intros c; cbn [split_dot]; [intros [= <-]; auto|].
  destruct (x =? 46)%N eqn:E; [discriminate|]. destruct (split_dot s) as [a o]. intros [= <- ->].
  destruct (IH a eq_refl) as [-> Hn]. split; auto. intros [->|Hi]; auto. discriminate.
Qed.
Lemma category_nodot c ty : category c ty -> ~ In 46%N c.
Proof. destruct 1; cbn; intuition discriminate. Qed.

(** Adding one entry. *)
Definition put (b : builder) (ty : ttype) (n : str) (v : pyval) : builder :=
  let f t := if ttype_eqb t ty then dict_set n v (dict_of b t) else dict_of b t in
  Bld (b_types b) (f USR_ATT) (f OBJ_ATT) (f ENV_ATT) (f ADM_ATT) (f CON_ATT).

Lemma load_entry_full b full ty n v : full_att full ty n -> load_entry b full v = Ok (put b ty n v).
Proof.
  intros (c & Hc & ->). unfold load_entry. rewrite (split_dot_app _ _ (category_nodot _ _ Hc)).
  destruct Hc; reflexivity.
Qed.
Lemma load_entry_bad b full v : (forall ty n, ~ full_att full ty n) ->
  (exists ty, category full ty) /\ load_entry b full v = Err EIndex \/
  (~ exists ty, category full ty) /\ load_entry b full v = Err EGeneric.
Proof.
  intros H. unfold load_entry. destruct (split_dot full) as [c [n|]] eqn:E.
  - right. apply split_dot_some in E as [-> Hd].
    assert (Hc : forall ty, ~ category c ty). { intros ty Hc. apply (H ty n). now exists c. }
    split.
    + intros [ty Hc']. apply category_nodot in Hc'. apply Hc'. rewrite in_app_iff. cbn. auto.
    + repeat match goal with |- (if str_eqb c ?l then _ else _) = _ =>
        let E := fresh in destruct (str_eqb c l) eqn:E; [apply str_eqb_eq in E; subst c; exfalso; eapply Hc; constructor|] end.
      reflexivity.
  - apply split_dot_none in E as [<- Hd].
    repeat match goal with |- context [if str_eqb full ?l then _ else _] =>
        let E := fresh in destruct (str_eqb full l) eqn:E;
        [apply str_eqb_eq in E; subst full; left; split; [eexists; constructor|reflexivity]|] end.
    right. split; auto. intros [ty Hc]. destruct Hc; discriminate.
Qed.

Lemma full_att_dec full : (exists ty n, full_att full ty n) \/ (forall ty n, ~ full_att full ty n).
Proof.
  destruct (split_dot full) as [c [n|]] eqn:E.
  - apply split_dot_some in E as [-> Hd].
    assert (D : (exists ty, category c ty) \/ ~ exists ty, category c ty).
    { repeat match goal with |- (exists ty, category c ty) \/ _ => idtac end.
      destruct (str_eqb c (lit "user")) eqn:E1; [apply str_eqb_eq in E1 as ->; left; eexists; constructor|].
      destruct (str_eqb c (lit "object")) eqn:E2; [apply str_eqb_eq in E2 as ->; left; eexists; constructor|].
      destruct (str_eqb c (lit "env")) eqn:E3; [apply str_eqb_eq in E3 as ->; left; eexists; constructor|].
      destruct (str_eqb c (lit "admin")) eqn:E4; [apply str_eqb_eq in E4 as ->; left; eexists; constructor|].
      destruct (str_eqb c (lit "connect")) eqn:E5; [apply str_eqb_eq in E5 as ->; left; eexists; constructor|].
      right. intros [ty Hc]. destruct Hc; discriminate. }
    destruct D as [[ty Hc]|D]; [left; exists ty, n, c; auto|]. right. intros ty m (c' & Hc' & Heq).
    assert (split_dot (c ++ lit "." ++ n) = split_dot (c' ++ lit "." ++ m)) by now rewrite Heq.
    rewrite !split_dot_app in H; auto; [|now apply (category_nodot c' ty)]. injection H as <- _. eauto.
  - apply split_dot_none in E as [<- Hd]. right. intros ty n (c & Hc & ->). apply Hd. rewrite in_app_iff. cbn. auto.
Qed.

(** Loading fails exactly at the first entry that is not a full attribute name:
    IndexError for a bare category, a plain Exception otherwise. *)
Theorem C30_load_errors (b : builder) (d : list (str * pyval)) :
  (forall e, load_mixed b d = Err e <->
     exists d1 full v d2, d = d1 ++ (full, v) :: d2 /\
       (forall f w, In (f, w) d1 -> exists ty n, full_att f ty n) /\
       (forall ty n, ~ full_att full ty n) /\
       ((exists ty, category full ty) /\ e = EIndex \/ (~ exists ty, category full ty) /\ e = EGeneric)).
Proof.
  revert b. induction d as [|[f v] r IH]; intros b e; cbn [load_mixed].
  - split; [discriminate|]. intros ([|] & ? & ? & ? & ? & _); discriminate.
  - destruct (full_att_dec f) as [(ty & n & Hf)|Hf].
    + rewrite (load_entry_full _ _ _ _ _ Hf). cbn [bind]. rewrite IH. split.
      * intros (d1 & g & w & d2 & -> & Ha & Hb). exists ((f, v) :: d1), g, w, d2. split; auto. split; auto.
        intros f' w' [[= <- <-]|Hi]; eauto.
      * intros ([|[f' v'] d1] & g & w & d2 & Heq & Ha & Hb & Hc).
        -- injection Heq as <- <- <-. exfalso. eapply Hb; eauto.
        -- injection Heq as <- <- ->. exists d1, g, w, d2. split; auto. split; auto.
           intros f' w' Hi. eapply Ha. right. eauto.
    + split.
      * intros H. exists [], f, v, r. split; auto. split; [intros ? ? []|]. split; auto.
        destruct (load_entry_bad b f v Hf) as [[Hc E]|[Hc E]]; rewrite E in H; injection H as <-; auto.
      * intros ([|[f' v'] d1] & g & w & d2 & Heq & Ha & Hb & Hc).
        -- injection Heq as <- <- <-. destruct (load_entry_bad b f v Hf) as [[Hd ->]|[Hd ->]];
           destruct Hc as [[Hc ->]|[Hc ->]]; auto; tauto.
        -- injection Heq as <- <- ->. exfalso. destruct (Ha f v) as (ty & n & H); [now left|]. eapply Hf; eauto.
Qed.

Lemma dict_of_put b ty n v t : In ty cats -> In t cats ->
  dict_of (put b ty n v) t = if ttype_eqb t ty then dict_set n v (dict_of b t) else dict_of b t.
Proof. cbn. intuition subst; reflexivity. Qed.
Lemma full_att_cats full ty n : full_att full ty n -> In ty cats.
Proof. intros (c & Hc & _). destruct Hc; cbn; auto 6. Qed.

Lemma dict_set_assoc {A} k (v : A) l x : assoc x (dict_set k v l) = if str_eqb x k then Some v else assoc x l.
Proof.
  induction l as [|[k' v'] r IH]; cbn [dict_set assoc]; auto.
  destruct (str_eqb k k') eqn:E; cbn [assoc].
  - apply str_eqb_eq in E as ->. now destruct (str_eqb x k').
  - rewrite IH. destruct (str_eqb x k') eqn:E1, (str_eqb x k) eqn:E2; auto.
    apply str_eqb_eq in E1, E2. subst. rewrite str_eqb_refl in E. discriminate.
Qed.

(** Loading keeps what was there and adds or replaces the entries of the dictionary. *)
Theorem C30_load (b b' : builder) (d : list (str * pyval)) :
  NoDup (map fst d) -> load_mixed b d = Ok b' ->
  b_types b' = b_types b /\
  forall full ty n, full_att full ty n ->
    assoc n (dict_of b' ty) = match assoc full d with Some v => Some v | None => assoc n (dict_of b ty) end.
Proof.
  revert b. induction d as [|[f v] r IH]; intros b Hd H; cbn [load_mixed] in H.
  - injection H as <-. auto.
  - destruct (full_att_dec f) as [(ty0 & n0 & Hf)|Hf].
    2:{ destruct (load_entry_bad b f v Hf) as [[_ E]|[_ E]]; rewrite E in H; discriminate. }
    rewrite (load_entry_full _ _ _ _ _ Hf) in H. cbn [bind] in H. cbn in Hd. inversion Hd as [|? ? Hn Hd']; subst.
    destruct (IH _ Hd' H) as [Ht Hx]. split; auto. intros full ty n Hfull. rewrite (Hx _ _ _ Hfull). cbn [assoc].
    rewrite dict_of_put by (eapply full_att_cats; eauto).
    destruct (str_eqb full f) eqn:E.
    + apply str_eqb_eq in E as ->. apply assoc_none in Hn as ->.
      destruct Hf as (c & Hc & ->), Hfull as (c' & Hc' & Heq).
      assert (S : split_dot (c ++ lit "." ++ n0) = split_dot (c' ++ lit "." ++ n)) by now rewrite Heq.
      rewrite !split_dot_app in S by (eapply category_nodot; eauto). injection S as <- <-.
      assert (ty0 = ty) as -> by (destruct Hc; inversion Hc'; auto).
      replace (ttype_eqb ty ty) with true by (destruct ty; reflexivity). now rewrite dict_set_assoc, str_eqb_refl.
    + destruct (assoc full r); auto. destruct (ttype_eqb ty ty0) eqn:Et; auto. rewrite dict_set_assoc.
      destruct (str_eqb n n0) eqn:En; auto. apply str_eqb_eq in En as ->. exfalso.
      assert (ty = ty0) as ->. { destruct ty, ty0; auto; discriminate. }
      destruct Hf as (c & Hc & ->), Hfull as (c' & Hc' & ->).
      assert (c = c') as -> by (destruct Hc; inversion Hc'; auto). rewrite str_eqb_refl in E. discriminate.
Qed.

(** *** build *)

Definition symbol_for (types : list (str * symtype)) (ty : ttype) (e : str * pyval) : symbol :=
  let name := full_name U (Some ty) (fst e) in
  Sym name (py_lower U (fst e)) ty (match assoc name types with Some t => t | None => ST_UNKNOWN end) (stored (snd e)).
Definition key_for (ty : ttype) (e : str * pyval) : str := py_lower U (full_name U (Some ty) (fst e)).

(** All entries, with their category, in the order of build. *)
Definition entries (b : builder) : list (ttype * (str * pyval)) :=
  flat_map (fun ty => map (pair ty) (dict_of b ty)) cats.

Lemma build_dict_spec types ty d : forall h tb h' tb',
  build_dict U types ty d (h, tb) = (h', tb') ->
  (forall k l, assoc k tb = Some l -> (l < List.length h)%nat) ->
  (exists hs, h' = h ++ hs) /\ (forall k l, assoc k tb' = Some l -> (l < List.length h')%nat) /\
  (NoDup (map fst tb) -> NoDup (map fst tb')) /\
  forall k, option_map (hget h') (assoc k tb') =
    match assoc k tb with
    | Some l => Some (hget h l)
    | None => option_map (symbol_for types ty) (find (fun e => str_eqb (key_for ty e) k) d)
    end.
Proof.
  induction d as [|[n v] r IH]; intros h tb h' tb' H Hl; cbn [build_dict] in H.
  - injection H as <- <-. split; [exists []; now rewrite app_nil_r|]. split; [exact Hl|]. split; [auto|].
    intros k. now destruct (assoc k tb).
  - set (s := set_sy_type _ _) in H.
    assert (Es : s = symbol_for types ty (n, v)).
    { unfold s, symbol_for, set_sy_type. rewrite name_new. cbn. now rewrite conv_stored. }
    clearbody s. unfold halloc, st_define in H. rewrite hget_new in H.
    assert (Ek : py_lower U (sy_name s) = key_for ty (n, v)) by now subst s. rewrite Ek in H.
    assert (Hh : forall k l, assoc k tb = Some l -> hget (h ++ [s]) l = hget h l).
    { intros k l Hi. apply hget_app. eauto. }
    destruct (assoc (key_for ty (n, v)) tb) as [l|] eqn:E; cbn [fst] in H.
    + apply IH in H.
      2:{ intros k l' Hi. rewrite app_length. apply Hl in Hi. lia. }
      destruct H as ([hs ->] & Hl' & Hd & H). split; [exists ([s] ++ hs); now rewrite app_assoc|]. split; auto. split; auto.
      intros k. rewrite H. destruct (assoc k tb) as [l'|] eqn:Ek2; [f_equal; eauto|]. cbn [find].
      destruct (str_eqb (key_for ty (n, v)) k) eqn:E2; auto. apply str_eqb_eq in E2 as <-. congruence.
    + apply IH in H.
      2:{ intros k l' Hi. rewrite app_length. rewrite assoc_app in Hi. destruct (assoc k tb) eqn:Ek2.
          - injection Hi as <-. apply Hl in Ek2. lia.
          - cbn [assoc] in Hi. destruct (str_eqb k _); [|discriminate]. injection Hi as <-. cbn. lia. }
      destruct H as ([hs ->] & Hl' & Hd & H). split; [exists ([s] ++ hs); now rewrite app_assoc|]. split; auto. split.
      { intros Hn. apply Hd. rewrite map_app. cbn. apply assoc_none in E. clear - Hn E.
        induction (map fst tb) as [|y q IHq]; cbn; [repeat constructor; auto|]. inversion Hn; subst. constructor.
        - rewrite in_app_iff. intros [Hi|[Hi|[]]]; auto. apply E. now left.
        - apply IHq; auto. intros Hi. apply E. now right. }
      intros k. rewrite H, assoc_app. destruct (assoc k tb) as [l'|] eqn:Ek2; [f_equal; eauto|].
      cbn [assoc find]. destruct (str_eqb k (key_for ty (n, v))) eqn:E2.
      * apply str_eqb_eq in E2 as ->. rewrite str_eqb_refl. cbn. now rewrite hget_new, Es.
      * destruct (str_eqb (key_for ty (n, v)) k) eqn:E3; auto. apply str_eqb_eq in E3 as <-.
        rewrite str_eqb_refl in E2. discriminate.
Qed.

Lemma find_app {A} (f : A -> bool) l m : find f (l ++ m) = match find f l with Some x => Some x | None => find f m end.
Proof. induction l as [|x l IH]; cbn; auto. destruct (f x); auto. Qed.
Lemma find_map {A B} (f : B -> bool) (g : A -> B) l : find f (map g l) = option_map g (find (fun x => f (g x)) l).
Proof. induction l as [|x l IH]; cbn; auto. destruct (f (g x)); auto. Qed.

(** For any dictionaries: the symbol found under a key is made from the first entry
    with that key; existing Symbol objects are untouched. *)
Theorem C30_build (b : builder) (h : heap) :
  let '(h', tb) := build_table U b h in
  (exists hs, h' = h ++ hs) /\ NoDup (map fst tb) /\
  forall k, option_map (hget h') (assoc k tb) =
    option_map (fun x => symbol_for (b_types b) (fst x) (snd x))
               (find (fun x => str_eqb (key_for (fst x) (snd x)) k) (entries b)).
Proof.
  unfold build_table. set (types := b_types b).
  destruct (build_dict U types USR_ATT (b_user b) (h, [])) as [h1 t1] eqn:E1.
  destruct (build_dict U types OBJ_ATT (b_object b) (h1, t1)) as [h2 t2] eqn:E2.
  destruct (build_dict U types ENV_ATT (b_env b) (h2, t2)) as [h3 t3] eqn:E3.
  destruct (build_dict U types ADM_ATT (b_admin b) (h3, t3)) as [h4 t4] eqn:E4.
  destruct (build_dict U types CON_ATT (b_connect b) (h4, t4)) as [h5 t5] eqn:E5.
  apply build_dict_spec in E1 as ([s1 ->] & L1 & D1 & F1); [|discriminate].
  apply build_dict_spec in E2 as ([s2 ->] & L2 & D2 & F2); [|exact L1].
  apply build_dict_spec in E3 as ([s3 ->] & L3 & D3 & F3); [|exact L2].
  apply build_dict_spec in E4 as ([s4 ->] & L4 & D4 & F4); [|exact L3].
  apply build_dict_spec in E5 as ([s5 ->] & L5 & D5 & F5); [|exact L4].
  split; [exists (s1 ++ s2 ++ s3 ++ s4 ++ s5); now rewrite !app_assoc|]. split.
  { apply D5, D4, D3, D2, D1. constructor. }
  intros k. rewrite F5. unfold entries, cats. cbn [flat_map dict_of]. rewrite app_nil_r, !find_app, !find_map. cbn [fst snd].
  specialize (F1 k). specialize (F2 k). specialize (F3 k). specialize (F4 k). cbn [assoc] in F1.
  destruct (assoc k t4) as [l4|]; cbn [option_map] in F4.
  2:{ destruct (assoc k t3) as [l3|]; [discriminate|]. destruct (find _ (b_admin b)); [discriminate|].
      cbn [option_map] in F3.
      destruct (assoc k t2) as [l2|]; [discriminate|]. destruct (find _ (b_env b)); [discriminate|].
      cbn [option_map] in F2.
      destruct (assoc k t1) as [l1|]; [discriminate|]. destruct (find _ (b_object b)); [discriminate|].
      cbn [option_map] in F1. destruct (find _ (b_user b)); [discriminate|]. cbn [option_map].
      now destruct (find _ (b_connect b)). }
  rewrite F4. destruct (assoc k t3) as [l3|]; cbn [option_map] in F3.
  2:{ destruct (assoc k t2) as [l2|]; [discriminate|]. destruct (find _ (b_env b)); [discriminate|].
      cbn [option_map] in F2.
      destruct (assoc k t1) as [l1|]; [discriminate|]. destruct (find _ (b_object b)); [discriminate|].
      cbn [option_map] in F1. destruct (find _ (b_user b)); [discriminate|]. cbn [option_map].
      destruct (find _ (b_admin b)); [reflexivity|discriminate]. }
  rewrite F3. destruct (assoc k t2) as [l2|]; cbn [option_map] in F2.
  2:{ destruct (assoc k t1) as [l1|]; [discriminate|]. destruct (find _ (b_object b)); [discriminate|].
      cbn [option_map] in F1. destruct (find _ (b_user b)); [discriminate|]. cbn [option_map].
      destruct (find _ (b_env b)); [reflexivity|discriminate]. }
  rewrite F2. destruct (assoc k t1) as [l1|]; cbn [option_map] in F1.
  2:{ destruct (find _ (b_user b)); [discriminate|]. cbn [option_map].
      destruct (find _ (b_object b)); [reflexivity|discriminate]. }
  rewrite F1. destruct (find _ (b_user b)); [reflexivity|discriminate].
Qed.

(** *** Loading a dictionary into a new builder and building, for ASCII names *)

Definition part (ty : ttype) (d : list (str * pyval)) : list (str * pyval) :=
  flat_map (fun e => match split_dot (fst e) with
                     | (c, Some n) => if str_eqb (c ++ lit ".") (var_prefix (Some ty)) then [(n, snd e)] else []
                     | _ => []
                     end) d.

Lemma dict_set_fresh {A} k (v : A) l : ~ In k (map fst l) -> dict_set k v l = l ++ [(k, v)].
Proof.
  induction l as [|[k' v'] r IH]; cbn; auto. intros H. destruct (str_eqb k k') eqn:E.
  - apply str_eqb_eq in E as ->. exfalso. auto.
  - f_equal. apply IH. auto.
Qed.

Lemma prefix_cat c ty t : category c ty -> In t cats -> str_eqb (c ++ lit ".") (var_prefix (Some t)) = ttype_eqb t ty.
Proof. intros Hc Ht. cbn in Ht. destruct Hc; intuition subst; reflexivity. Qed.

Lemma load_parts d : forall b b', NoDup (map fst d) -> load_mixed b d = Ok b' ->
  (forall full ty n v, In (full, v) d -> full_att full ty n -> ~ In n (map fst (dict_of b ty))) ->
  b_types b' = b_types b /\
  Forall (fun e => exists ty n, full_att (fst e) ty n) d /\
  forall ty, In ty cats -> dict_of b' ty = dict_of b ty ++ part ty d.
Proof.
  induction d as [|[f v] r IH]; intros b b' Hd H Hfr; cbn [load_mixed] in H.
  - injection H as <-. split; auto. split; auto. intros. cbn. now rewrite app_nil_r.
  - destruct (full_att_dec f) as [(ty0 & n0 & Hf)|Hf].
    2:{ destruct (load_entry_bad b f v Hf) as [[_ E]|[_ E]]; rewrite E in H; discriminate. }
    rewrite (load_entry_full _ _ _ _ _ Hf) in H. cbn [bind] in H. cbn in Hd. inversion Hd as [|? ? Hn Hd']; subst.
    pose proof (full_att_cats _ _ _ Hf) as Hc0.
    assert (Hf0 : ~ In n0 (map fst (dict_of b ty0))) by (apply (Hfr f ty0 n0 v); [now left|auto]).
    apply IH in H; auto.
    + destruct H as (Ht & Hw & H). split; auto. split; [constructor; eauto|].
      intros ty Hty. rewrite (H ty Hty), dict_of_put by auto. unfold part at 2. cbn [flat_map fst snd]. fold (part ty r).
      destruct Hf as (c & Hc & ->). rewrite split_dot_app by (eapply category_nodot; eauto).
      rewrite (prefix_cat _ _ _ Hc Hty). destruct (ttype_eqb ty ty0) eqn:E; auto.
      assert (ty = ty0) as -> by (destruct ty, ty0; auto; discriminate).
      rewrite dict_set_fresh, <- app_assoc by auto. reflexivity.
    + intros full ty n w Hi Hfull. pose proof (full_att_cats _ _ _ Hfull) as Hc. rewrite dict_of_put by auto.
      assert (Hfr' : ~ In n (map fst (dict_of b ty))) by (apply (Hfr full ty n w); [now right|auto]).
      destruct (ttype_eqb ty ty0) eqn:E; auto.
      assert (ty = ty0) as -> by (destruct ty, ty0; auto; discriminate).
      rewrite dict_set_fresh by auto. rewrite map_app, in_app_iff. cbn. intros [Hi'|[<-|[]]]; auto.
      destruct Hf as (c & Hc1 & ->), Hfull as (c' & Hc2 & ->).
      assert (c = c') as -> by (destruct Hc1; inversion Hc2; auto).
      apply Hn. apply in_map_iff. now exists (c' ++ lit "." ++ n0, w).
Qed.

Definition lower (s : str) : str := map lower_c s.

Lemma lower_idem s : is_ascii s = true -> lower (lower s) = lower s.
Proof.
  unfold lower, is_ascii. induction s as [|c s IH]; cbn; auto. intros H. apply andb_true_iff in H as [H1 H2].
  rewrite IH by auto. f_equal. unfold lower_c, up, asc in *. apply N.ltb_lt in H1.
  destruct (65 <=? c)%N eqn:E1, (c <=? 90)%N eqn:E2; cbn; rewrite ?E1, ?E2; auto.
  destruct (65 <=? c + 32)%N eqn:E3, (c + 32 <=? 90)%N eqn:E4; cbn; auto.
  apply N.leb_le in E1, E2, E4. lia.
Qed.
Lemma lower_ascii s : is_ascii s = true -> is_ascii (lower s) = true.
Proof.
  unfold lower, is_ascii. induction s as [|c s IH]; cbn; auto. intros H. apply andb_true_iff in H as [H1 H2].
  rewrite IH by auto. rewrite andb_true_r. unfold lower_c, up, asc in *. apply N.ltb_lt in H1.
  destruct ((65 <=? c)%N && (c <=? 90)%N) eqn:E; apply N.ltb_lt; auto.
  apply andb_true_iff in E as [_ E]. apply N.leb_le in E. lia.
Qed.
Lemma py_lower_ascii s : is_ascii s = true -> py_lower U s = lower s.
Proof. unfold py_lower. now intros ->. Qed.
Lemma lower_nodot c : ~ In 46%N c -> ~ In 46%N (lower c).
Proof.
  unfold lower. intros H Hi. apply in_map_iff in Hi as (x & Hx & Hi). apply H. unfold lower_c, up in Hx.
  destruct ((65 <=? x)%N && (x <=? 90)%N) eqn:E; [|now subst].
  apply andb_true_iff in E as [E1 E2]. apply N.leb_le in E1, E2. lia.
Qed.

Lemma key_full full ty n v : full_att full ty n -> is_ascii full = true -> key_for ty (n, v) = lower full.
Proof.
  intros (c & Hc & ->) Ha. unfold is_ascii in Ha. rewrite !forallb_app in Ha.
  apply andb_true_iff in Ha as [_ Ha]. apply andb_true_iff in Ha as [_ Ha].
  unfold key_for, full_name. cbn [fst]. rewrite (py_lower_ascii n) by exact Ha.
  assert (P : exists p, category c ty /\ prefix_of (Some ty) = p /\ p = c ++ lit "." /\ is_ascii p = true /\ lower p = p).
  { destruct Hc; eexists; repeat split; constructor. }
  destruct P as (p & _ & -> & Hp & Hpa & Hpl).
  rewrite py_lower_ascii.
  - unfold lower at 1 3. rewrite app_assoc, <- Hp, !map_app. fold (lower p). rewrite Hpl. f_equal. apply (lower_idem n Ha).
  - unfold is_ascii in *. rewrite forallb_app, Hpa. now apply (lower_ascii n).
Qed.

Lemma find_part k ty d : In ty cats -> Forall (fun e => exists t n, full_att (fst e) t n) d ->
  Forall (fun e => is_ascii (fst e) = true) d ->
  find (fun e => str_eqb (key_for ty e) k) (part ty d) =
  option_map (fun e => (match snd (split_dot (fst e)) with Some n => n | None => [] end, snd e))
    (find (fun e => str_eqb (fst (split_dot (fst e)) ++ lit ".") (var_prefix (Some ty)) && str_eqb (lower (fst e)) k) d).
Proof.
  intros Hty. induction d as [|[f v] r IH]; intros Hw Ha; auto.
  inversion Hw as [|? ? [t [n Hf]] Hw']; subst. inversion Ha as [|? ? Hfa Ha']; subst. cbn [fst] in *.
  unfold part. cbn [flat_map fst snd find]. fold (part ty r). pose proof Hf as (c & Hc & Heq).
  assert (S : split_dot f = (c, Some n)) by (rewrite Heq; apply split_dot_app; eapply category_nodot; eauto).
  rewrite S. cbn [fst snd]. rewrite (prefix_cat _ _ _ Hc Hty).
  destruct (ttype_eqb ty t) eqn:E; cbn [app andb]; [|apply IH; auto].
  assert (ty = t) as -> by (destruct ty, t; auto; discriminate).
  cbn [find]. rewrite (key_full _ _ _ _ Hf Hfa). destruct (str_eqb (lower f) k); [cbn; now rewrite S|apply IH; auto].
Qed.

Lemma find_ext {A} (f g : A -> bool) l : Forall (fun x => f x = g x) l -> find f l = find g l.
Proof. induction 1 as [|x l H _ IH]; cbn; auto. rewrite H. destruct (g x); auto. Qed.
Lemma find_nothing {A} (f : A -> bool) l : Forall (fun x => f x = false) l -> find f l = None.
Proof. induction 1 as [|x l H _ IH]; cbn; auto. now rewrite H. Qed.

(** The table holds, for the first entry of every lower-cased name, a symbol with that
    category, that value and the type declared for the name, and nothing else. *)
Theorem C30_load_build (types : list (str * symtype)) (d : list (str * pyval)) (b : builder) (h : heap) :
  NoDup (map fst d) -> (forall full v, In (full, v) d -> is_ascii full = true) ->
  load_mixed (builder_new types) d = Ok b ->
  let '(h', tb) := build_table U b h in
  (forall l, (l < List.length h)%nat -> hget h' l = hget h l) /\
  (forall q, is_ascii q = true ->
     match find (fun e => str_eqb (lower (fst e)) (lower q)) d with
     | Some (full, v) =>
         exists l ty n, full_att full ty n /\ st_lookup U tb q = Some l /\
           hget h' l = Sym (lower full) (lower n) ty
                           (match assoc (lower full) types with Some t => t | None => ST_UNKNOWN end) (stored v)
     | None => st_lookup U tb q = None
     end) /\
  (forall k, In k (map fst tb) <-> exists full v, In (full, v) d /\ k = lower full).
Proof.
  intros Hd Ha Hl. pose proof (C30_build b h) as B. destruct (build_table U b h) as [h' tb].
  destruct B as ([hs ->] & Hn & B).
  destruct (load_parts d _ _ Hd Hl) as (Ht & Hw & Hp); [intros ? ty; destruct ty; cbn; auto|]. cbn [builder_new b_types] in Ht.
  assert (Ha' : Forall (fun e : str * pyval => is_ascii (fst e) = true) d).
  { apply Forall_forall. intros [f v] Hi. eapply Ha; eauto. }
  (* searching all entries is searching [d] *)
  assert (F : forall k,
    option_map (fun x => (fst x, snd x)) (find (fun x => str_eqb (key_for (fst x) (snd x)) k) (entries b)) =
    match find (fun e => str_eqb (lower (fst e)) k) d with
    | Some (full, v) =>
        match split_dot full with
        | (c, Some n) => match find (fun ty => str_eqb (c ++ lit ".") (var_prefix (Some ty))) cats with
                         | Some ty => Some (ty, (n, v)) | None => None end
        | _ => None
        end
    | None => None
    end).
  { intros k. unfold entries, cats. cbn [flat_map]. rewrite app_nil_r, !find_app, !find_map. cbn [fst snd].
    assert (P : forall ty, In ty cats ->
      find (fun e => str_eqb (key_for ty e) k) (dict_of b ty) =
      option_map (fun e => (match snd (split_dot (fst e)) with Some n => n | None => [] end, snd e))
        (find (fun e => str_eqb (fst (split_dot (fst e)) ++ lit ".") (var_prefix (Some ty)) && str_eqb (lower (fst e)) k) d)).
    { intros ty Hty. rewrite (Hp ty Hty). replace (dict_of (builder_new types) ty) with (@nil (str * pyval)) by now destruct ty.
      cbn [app]. now apply find_part. }
    cbn [cats In] in P. rewrite !P by auto 10. clear P.
    assert (Q : forall ty, In ty cats -> 
      find (fun e => str_eqb (fst (split_dot (fst e)) ++ lit ".") (var_prefix (Some ty)) && str_eqb (lower (fst e)) k) d =
      if str_eqb (fst (split_dot k) ++ lit ".") (var_prefix (Some ty)) then find (fun e => str_eqb (lower (fst e)) k) d else None).
    { intros ty Hty.
      assert (R : Forall (fun e => str_eqb (lower (fst e)) k = true -> fst (split_dot (fst e)) = fst (split_dot k)) d).
      { apply Forall_forall. intros [f v] Hi E. apply str_eqb_eq in E. cbn [fst] in *. subst k.
        rewrite Forall_forall in Hw. destruct (Hw _ Hi) as (t & n & c & Hc & Heq). cbn [fst] in Heq. subst f.
        rewrite split_dot_app by (eapply category_nodot; eauto). unfold lower. rewrite !map_app. change (map lower_c (lit ".")) with (lit ".").
        fold (lower c). rewrite split_dot_app by (apply lower_nodot; eapply category_nodot; eauto). cbn.
        destruct Hc; reflexivity. }
      destruct (str_eqb (fst (split_dot k) ++ lit ".") (var_prefix (Some ty))) eqn:E.
      - apply find_ext. eapply Forall_impl; [|exact R]. intros e He. cbn beta in *.
        destruct (str_eqb (lower (fst e)) k); [|now rewrite andb_false_r]. rewrite He, E; auto.
      - apply find_nothing. eapply Forall_impl; [|exact R]. intros e He. cbn beta in *.
        destruct (str_eqb (lower (fst e)) k); [|now rewrite andb_false_r]. rewrite He, E; auto. }
    cbn [cats In] in Q. rewrite !Q by auto 10. clear Q.
    destruct (find (fun e => str_eqb (lower (fst e)) k) d) as [[f v]|] eqn:E.
    - apply find_some in E as [Hi E]. apply str_eqb_eq in E. cbn [fst] in E. subst k.
      rewrite Forall_forall in Hw. destruct (Hw _ Hi) as (t & n & c & Hc & Heq). cbn [fst] in Heq. subst f.
      rewrite split_dot_app by (eapply category_nodot; eauto). unfold lower. rewrite !map_app. change (map lower_c (lit ".")) with (lit ".").
      fold (lower c). rewrite split_dot_app by (apply lower_nodot; eapply category_nodot; eauto). cbn [fst].
      destruct Hc; cbn; rewrite ?split_dot_app by (cbn; intuition discriminate); reflexivity.
    - repeat match goal with |- context [if ?c then None else None] => destruct c end; reflexivity. }
  assert (G : forall k, 
     match find (fun e => str_eqb (lower (fst e)) k) d with
     | Some (full, v) =>
         exists l ty n, full_att full ty n /\ lower full = k /\ assoc k tb = Some l /\
           hget (h ++ hs) l = Sym (lower full) (lower n) ty
                           (match assoc (lower full) types with Some t => t | None => ST_UNKNOWN end) (stored v)
     | None => assoc k tb = None
     end).
  { intros k. specialize (B k). specialize (F k).
    destruct (find (fun e => str_eqb (lower (fst e)) k) d) as [[f v]|] eqn:E.
    - apply find_some in E as [Hi E]. apply str_eqb_eq in E. cbn [fst] in E.
      rewrite Forall_forall in Hw. destruct (Hw _ Hi) as (t & n & Hf). cbn [fst] in Hf. pose proof Hf as (c & Hc & Heq).
      rewrite Heq, split_dot_app in F by (eapply category_nodot; eauto).
      assert (Hfind : find (fun ty => str_eqb (c ++ lit ".") (var_prefix (Some ty))) cats = Some t) by (destruct Hc; reflexivity).
      rewrite Hfind in F. destruct (find _ (entries b)) as [[t' e]|]; [|discriminate]. cbn in F. injection F as -> ->.
      cbn [option_map fst snd] in B. destruct (assoc k tb) as [l|]; [|discriminate]. cbn in B. injection B as B.
      exists l, t, n. split; auto. split; auto. split; auto. rewrite B. unfold symbol_for. cbn [fst snd]. rewrite Ht.
      assert (Hn1 : full_name U (Some t) n = lower f /\ py_lower U n = lower n).
      { pose proof (Ha _ _ Hi) as Hfa. rewrite Heq in Hfa. unfold is_ascii in Hfa. rewrite !forallb_app in Hfa.
        apply andb_true_iff in Hfa as [_ Hfa]. apply andb_true_iff in Hfa as [_ Hfa].
        pose proof (py_lower_ascii n Hfa) as Hn1. split; auto. unfold full_name. rewrite Hn1, Heq. unfold lower. rewrite !map_app.
        rewrite app_assoc. f_equal. destruct Hc; reflexivity. }
      destruct Hn1 as [-> ->]. reflexivity.
    - destruct (find _ (entries b)); [discriminate|]. cbn in B. destruct (assoc k tb); [discriminate|auto]. }
  split; [intros l Hlt; unfold hget; now apply app_nth1|]. split.
  - intros q Hq. specialize (G (lower q)). unfold st_lookup. rewrite (py_lower_ascii q Hq).
    destruct (find _ d) as [[f v]|]; auto. destruct G as (l & ty & n & Hf & _ & Hl2 & Hs). eauto 6.
  - intros k. specialize (G k). split.
    + intros Hi. destruct (find _ d) as [[f v]|] eqn:E.
      * apply find_some in E as [Hi2 E]. apply str_eqb_eq in E. cbn in E. eauto.
      * apply assoc_none in G. tauto.
    + intros (f & v & Hi & ->). destruct (find _ d) as [[f' v']|] eqn:E.
      * destruct G as (l & _ & _ & _ & _ & G & _). apply assoc_in in G. apply in_map_iff. now exists (lower f, l).
      * exfalso. pose proof (List.find_none _ _ E _ Hi) as E2. cbn in E2. now rewrite str_eqb_refl in E2.
Qed.
End C30.

(** ** Concrete cases *)

(** Defining a name twice (in different case), setting it, and a failing call. *)
Example ex_calls :
  let ops := [ODefine (lit "Age") (Some USR_ATT) None (VInt 1);
              ODefine (lit "aGE") (Some USR_ATT) (Some ST_INT) (VInt 2);
              OSetValue (lit "USER.age") (VBool true);
              OSwitchType (lit "user.AGE") ST_BOOL;
              OSetValue (lit "env.age") (VInt 3)] in
  let '((h, tb), answers) := calls ascii_only ([], []) ops in
  answers = [ABool true; ABool false; ANothing; AType ST_UNKNOWN; ARaised EGeneric] /\
  st_lookup_value ascii_only h tb (lit "User.Age") = Ok (VTri TRUE) /\
  st_lookup_type ascii_only h tb (lit "User.Age") = Some ST_BOOL.
Proof. vm_compute. auto. Qed.
Example ex_last_value :
  let l1 := [ODefine (lit "Age") (Some USR_ATT) None (VInt 1); OSetValue (lit "user.age") (VInt 2)] in
  Exists (defines ascii_only (lit "user.age")) l1 /\
  ~ Exists (sets_value ascii_only (lit "user.age")) [OSetValue (lit "env.x") (VInt 2)].
Proof.
  split; [constructor; reflexivity|]. intros H. inversion H as [? ? Hd|? ? Hd]; subst; [|inversion Hd]. discriminate Hd.
Qed.

(** A dictionary with two spellings of one name. *)
Definition ex_dict : list (str * pyval) :=
  [(lit "user.Age", VInt 30); (lit "connect.ip", VStr (lit "::1")); (lit "user.age", VInt 31);
   (lit "user.ok", VBool true); (lit "env.a.b", VList [])].
Definition ex_types : list (str * symtype) := [(lit "user.age", ST_INT); (lit "user.ok", ST_BOOL)].
Example ex_dict_ok : NoDup (map fst ex_dict) /\ forallb (fun e => is_ascii (fst e)) ex_dict = true.
Proof. split; [|reflexivity]. repeat constructor; cbn; intuition discriminate. Qed.
Example ex_build : exists b, load_mixed (builder_new ex_types) ex_dict = Ok b /\
  build_table ascii_only b [] =
  ([Sym (lit "user.age") (lit "age") USR_ATT ST_INT (VInt 30);
    Sym (lit "user.age") (lit "age") USR_ATT ST_INT (VInt 31);
    Sym (lit "user.ok") (lit "ok") USR_ATT ST_BOOL (VTri TRUE);
    Sym (lit "env.a.b") (lit "a.b") ENV_ATT ST_UNKNOWN (VList []);
    Sym (lit "connect.ip") (lit "ip") CON_ATT ST_UNKNOWN (VStr (lit "::1"))],
   [(lit "user.age", 0%nat); (lit "user.ok", 2%nat); (lit "env.a.b", 3%nat); (lit "connect.ip", 4%nat)]).
Proof. eexists. split; reflexivity. Qed.
Example ex_load_bad : load_mixed (builder_new []) [(lit "User.a", VInt 1)] = Err EGeneric /\
  load_mixed (builder_new []) [(lit "user.a", VInt 1); (lit "env", VInt 1)] = Err EIndex.
Proof. split; reflexivity. Qed.

(** ** Reusing a builder *)

(** After reset_values the builder holds no attribute, so it builds the empty table, and what is
    loaded into it next is all it holds: it is as good as a new builder with the same types. *)
Theorem C30_reset (U : unicode) (b : builder) (h : heap) (d : list (str * pyval)) :
  (forall ty, dict_of (reset_values b) ty = []) /\
  build_table U (reset_values b) h = (h, []) /\
  load_mixed (reset_values b) d = load_mixed (builder_new (b_types b)) d.
Proof. repeat split. now intros []. Qed.
Example ex_reset :
  let ty := [(lit "user.a", ST_INT)] in
  let b := Bld ty [(lit "a", VInt 1)] [(lit "b", VInt 2)] [] [] [(lit "c", VInt 3)] in
  match load_mixed (reset_values b) [(lit "user.a", VInt 4)] with
  | Ok b' => map (fun e => snd (snd e)) (entries b') = [VInt 4] /\ b_types b' = ty /\ map (fun e => snd (snd e)) (entries b) = [VInt 1; VInt 2; VInt 3]
  | Err _ => False
  end.
Proof. vm_compute. auto. Qed.

Print Assumptions C29_map.
Print Assumptions C29_failures.
Print Assumptions C29_first_wins.
Print Assumptions C29_last_value.
Print Assumptions C29_last_type.
Print Assumptions C29_shared.
Print Assumptions C30_load_errors.
Print Assumptions C30_load.
Print Assumptions C30_build.
Print Assumptions C30_load_build.
Print Assumptions C30_reset.
