(** * IniProps: what is written in the configuration files is what the services use (C119) *)

From Coq Require Import NArith List Bool Lia String PeanoNat.
From Verif Require Import PyBase LexSpec LexProofs LexCase Config ConfigProps Logging Ini IniSpec IniProofs.
Import ListNotations.
Open Scope N_scope.

Lemma has_iff : forall A k (l : list (str * A)), has k l = true <-> In k (map fst l).
Proof.
  induction l as [|[x v] l IH]; cbn [has map fst In]; [split; [discriminate|intros []]|].
  rewrite orb_true_iff, IH. split; intros [H|H]; auto; left; [now apply str_eqb_eq|rewrite H; apply str_eqb_refl].
Qed.
Lemma has_not : forall A k (l : list (str * A)), has k l = false <-> ~ In k (map fst l).
Proof. intros A k l. rewrite <- has_iff. destruct (has k l); split; congruence. Qed.

Lemma update_last : forall A k (f : A -> A) l v, ~ In k (map fst l) -> update k f (l ++ [(k, v)]) = l ++ [(k, f v)].
Proof.
  induction l as [|[x w] l IH]; intros v H; cbn [app update].
  - now rewrite str_eqb_refl.
  - destruct (str_eqb x k) eqn:E.
    + apply str_eqb_eq in E as ->. destruct H. now left.
    + rewrite IH; [reflexivity|]. intros I. apply H. now right.
Qed.
Lemma assoc_last : forall A k (l : list (str * A)) v, ~ In k (map fst l) -> assoc k (l ++ [(k, v)]) = Some v.
Proof.
  induction l as [|[x w] l IH]; intros v H; cbn [app assoc].
  - now rewrite str_eqb_refl.
  - destruct (str_eqb x k) eqn:E.
    + apply str_eqb_eq in E as ->. destruct H. now left.
    + apply IH. intros I. apply H. now right.
Qed.

(** The reader in section [n], which has the options [o] so far; the options and sections
    before it are [D] and [S0]. *)
Definition D1 (D : raw_options) (n : str) (o : raw_options) : raw_options := if str_eqb n s_default then D ++ o else D.
Definition S1 (S0 : list (str * raw_options)) (n : str) (o : raw_options) : list (str * raw_options) :=
  if str_eqb n s_default then S0 else S0 ++ [(n, o)].
Definition at_sect (D : raw_options) (S0 : list (str * raw_options)) (n : str) (o : raw_options) (k : str) (i : nat) (b : bool) : reader :=
  Reader (D1 D n o) (S1 S0 n o) (Some n) k i b.
Definition before (D : raw_options) (n : str) : raw_options := if str_eqb n s_default then D else [].
Definition new_name (n : str) (S0 : list (str * raw_options)) : Prop := str_eqb n s_default = false -> ~ In n (map fst S0).

Lemma cur_opts_at : forall D S0 n o k i b, new_name n S0 -> cur_opts n (at_sect D S0 n o k i b) = before D n ++ o.
Proof.
  intros D S0 n o k i b H. unfold cur_opts, at_sect, before, D1, S1. cbn [n_default n_sections].
  destruct (str_eqb n s_default) eqn:E; [reflexivity|]. now rewrite (assoc_last _ _ _ _ (H E)).
Qed.
Lemma in_sect_app : forall D S0 n o k i b p, new_name n S0 ->
  in_sect n (fun o => o ++ [p]) (at_sect D S0 n o k i b) = at_sect D S0 n (o ++ [p]) k i b.
Proof.
  intros D S0 n o k i b p H. unfold in_sect, at_sect, D1, S1. cbn [n_default n_sections n_sect n_opt n_indent n_bad].
  destruct (str_eqb n s_default) eqn:E; [now rewrite app_assoc|]. now rewrite (update_last _ _ _ _ _ (H E)).
Qed.
Lemma append_line_at : forall D S0 n o k l i b x, new_name n S0 -> ~ In k (map fst (before D n ++ o)) ->
  append_line x (at_sect D S0 n (o ++ [(k, l)]) k i b) = at_sect D S0 n (o ++ [(k, l ++ [x])]) k i b.
Proof.
  intros D S0 n o k l i b x H N0. unfold append_line, in_sect, at_sect, D1, S1, before in *. cbn [n_default n_sections n_sect n_opt n_indent n_bad].
  destruct (str_eqb n s_default) eqn:E.
  - rewrite app_assoc, (update_last _ _ _ _ _ N0), app_assoc. reflexivity.
  - rewrite (update_last _ _ _ _ _ (H E)). rewrite (update_last _ _ _ _ _ N0). reflexivity.
Qed.

Definition bound (st : reader) : option nat := if in_value st then Some (n_indent st) else None.
Lemma bound_below : forall st n, below (bound st) n <-> in_value st && Nat.ltb (n_indent st) n = false.
Proof.
  intros st n. unfold bound, below. destruct (in_value st); cbn [andb].
  - symmetry. apply Nat.ltb_ge.
  - split; auto.
Qed.

Lemma read_app : forall U l1 l2 st, read_lines U st (l1 ++ l2) =
  match read_lines U st l1 with inl st => read_lines U st l2 | inr e => inr e end.
Proof.
  induction l1 as [|l l1 IH]; intros l2 st; cbn [app read_lines]; [reflexivity|].
  destruct (read_line U st l) as [st'|e]; [apply IH|reflexivity].
Qed.

Section WithUnicode.
Variable U : unicode.
Hypothesis US : names_stay U.
Notation read_line := (read_line U). Notation read_lines := (read_lines U).

(** ** From files to readings *)

Lemma is_nil_iff : forall (s : str), is_nil s = false <-> s <> [].
Proof. intros [|c s]; cbn; split; congruence. Qed.

(** Lines without meaning where no value can be carried on. *)
Lemma read_filler : forall ls st, in_value st = false -> Forall (filler U) ls -> read_lines st ls = inl st.
Proof.
  induction 2 as [|l ls F _ IH]; [reflexivity|]. cbn [Ini.read_lines]. unfold Ini.read_line.
  destruct (is_comment (strip U l)) eqn:C; [exact IH|].
  destruct F as [F|F]; [|apply is_comment_iff in F; congruence].
  apply strip_nil in F. rewrite F. cbn [is_nil]. rewrite H. exact IH.
Qed.

Lemma read_more : forall n ls xs, more U n ls xs -> forall D S0 m (o : raw_options) (k : str) (l : list str), new_name m S0 -> k <> [] ->
  ~ In k (map fst (before D m ++ o)) ->
  read_lines (at_sect D S0 m (o ++ [(k, l)]) k n false) ls = inl (at_sect D S0 m (o ++ [(k, l ++ xs)]) k n false).
Proof.
  intros n ls xs M. induction M as [|x ls xs B _ IH|x ls xs C _ IH|x ls i y xs W L _ IH]; intros D S0 m o k l NN K N0; cbn [Ini.read_lines].
  - now rewrite app_nil_r.
  - unfold Ini.read_line. apply strip_nil in B. rewrite B. cbn [is_comment is_nil].
    replace (in_value (at_sect D S0 m (o ++ [(k, l)]) k n false)) with true by (cbn; now destruct k).
    cbv iota. rewrite append_line_at by assumption. rewrite IH by assumption. now rewrite <- app_assoc.
  - unfold Ini.read_line. apply is_comment_iff in C. rewrite C. now apply IH.
  - apply words_iff in W as (E & NE & NC & ->). unfold Ini.read_line. rewrite NC, E. destruct y as [|c y]; [now destruct NE|]. cbn [is_nil].
    replace (in_value (at_sect D S0 m (o ++ [(k, l)]) k n false)) with true by (cbn; now destruct k).
    change (n_indent (at_sect D S0 m (o ++ [(k, l)]) k n false)) with n. apply Nat.ltb_lt in L. cbn [andb]. rewrite L. cbv iota.
    rewrite append_line_at by assumption. rewrite IH by assumption. now rewrite <- app_assoc.
Qed.

Lemma read_setting : forall D S0 m o k0 i n key v l, setting U n key v l -> new_name m S0 ->
  below (bound (at_sect D S0 m o k0 i false)) n -> ~ In key (map fst (before D m ++ o)) ->
  read_line (at_sect D S0 m o k0 i false) l = inl (at_sect D S0 m (o ++ [(key, [v])]) key n false).
Proof.
  intros D S0 m o k0 i n key v l S NN B N0. apply setting_iff in S as (k & y & NE & NC & NH & O & K & Ek & -> & ->).
  apply bound_below in B. unfold Ini.read_line. rewrite NC. apply is_nil_iff in NE. rewrite NE, B, NH.
  change (n_sect (at_sect D S0 m o k0 i false)) with (Some m). change (n_default (at_sect D S0 m o k0 i false)) with (D1 D m o).
  change (n_sections (at_sect D S0 m o k0 i false)) with (S1 S0 m o). change (n_bad (at_sect D S0 m o k0 i false)) with false.
  change (n_opt (at_sect D S0 m o k0 i false)) with k0. cbn [n_sect n_default n_sections n_opt n_indent n_bad].
  rewrite O. rewrite <- Ek. apply is_nil_iff in K. rewrite K. cbn [orb].
  change (Reader (D1 D m o) (S1 S0 m o) (Some m) k0 (indent U l) false) with (at_sect D S0 m o k0 (indent U l) false).
  change (Reader (D1 D m o) (S1 S0 m o) (Some m) key (indent U l) false) with (at_sect D S0 m o key (indent U l) false).
  rewrite (cur_opts_at _ _ _ _ _ _ _ NN). apply has_not in N0. rewrite N0.
  now rewrite (in_sect_app _ _ _ _ _ _ _ _ NN).
Qed.

Lemma setting_key : forall n key v l, setting U n key v l -> key <> [].
Proof. intros n key v l S. apply setting_iff in S as (k & y & _ & _ & _ & _ & K & -> & _). now apply US. Qed.

Lemma read_entries : forall b es os b', entries U b es os b' -> forall D S0 m o k i, new_name m S0 ->
  b = bound (at_sect D S0 m o k i false) -> NoDup (map fst (before D m ++ o ++ os)) ->
  exists k' i', read_lines (at_sect D S0 m o k i false) (flat_map entry_lines es) = inl (at_sect D S0 m (o ++ os) k' i' false) /\
    b' = bound (at_sect D S0 m (o ++ os) k' i' false).
Proof.
  intros b es os b' E. induction E as [b|b e n k x xs es os b' Bn S M E IH]; intros D S0 m o k0 i NN -> ND.
  - exists k0, i. cbn [flat_map Ini.read_lines]. rewrite app_nil_r. split; reflexivity.
  - assert (N0 : ~ In k (map fst (before D m ++ o))).
    { rewrite app_assoc, map_app in ND. apply NoDup_remove_2 in ND. intros I. apply ND. apply in_or_app. now left. }
    cbn [flat_map]. unfold entry_lines at 1. cbn [app Ini.read_lines].
    rewrite (read_setting _ _ _ _ _ _ _ _ _ _ S NN Bn N0). rewrite read_app.
    rewrite (read_more _ _ _ M _ _ _ _ _ _ NN (setting_key _ _ _ _ S) N0). cbn [app].
    destruct (IH D S0 m (o ++ [(k, x :: xs)]) k n NN) as (k' & i' & R & Q).
    + unfold bound. cbn. apply setting_key in S. now destruct k.
    + now rewrite <- app_assoc.
    + exists k', i'. rewrite R, <- app_assoc in *. now split.
Qed.

(** The state between two parts. *)
Lemma read_header : forall st n name l, header U n name l -> below (bound st) n -> ~ In name (map fst (n_sections st)) ->
  read_line st l = inl (at_sect (n_default st) (n_sections st) name [] [] n (n_bad st)).
Proof.
  intros st n name l H B N0. pose proof (header_at _ _ _ _ H) as ->. apply header_iff in H as [NE H].
  unfold Ini.read_line. apply bound_below in B. destruct (is_comment (strip U l)) eqn:C.
  - apply header_of_iff in H as (r & E & _). rewrite E in C. discriminate.
  - apply is_nil_iff in NE. rewrite NE, B, H. cbn [n_sections]. apply has_not in N0. rewrite N0.
    unfold at_sect, D1, S1. cbn [n_default n_indent n_bad]. destruct (str_eqb name s_default); [|reflexivity]. now rewrite app_nil_r.
Qed.

Lemma default_header : forall l name os, named_default (name, os) = true -> defaults ((name, os) :: l) = os ++ defaults l /\ others ((name, os) :: l) = others (l : list (str * raw_options)).
Proof. intros l name os H. unfold defaults, others. cbn [filter]. rewrite H. now split. Qed.
Lemma other_header : forall l name os, named_default (name, os) = false -> defaults ((name, os) :: l) = defaults l /\ others ((name, os) :: l) = (name, os) :: others (l : list (str * raw_options)).
Proof. intros l name os H. unfold defaults, others. cbn [filter]. rewrite H. now split. Qed.

Definition fresh (D : raw_options) (S0 : list (str * raw_options)) (l : list (str * raw_options)) : Prop :=
  NoDup (map fst (D ++ defaults l)) /\ NoDup (map fst (S0 ++ others l)) /\ ~ In s_default (map fst S0) /\
  Forall (fun p => NoDup (map fst (snd p))) (others l).

Lemma others_default : forall A (l : list (str * A)), ~ In s_default (map fst (others l)).
Proof.
  intros A l I. apply in_map_iff in I as ([x o] & E & I). cbn in E. subst x. apply filter_In in I as [_ I].
  unfold named_default in I. cbn [fst] in I. now rewrite str_eqb_refl in I.
Qed.

Lemma read_parts : forall b ps l b2, parts U b ps l b2 -> forall st, b = bound st -> n_bad st = false ->
  fresh (n_default st) (n_sections st) l ->
  exists st', read_lines st (flat_map part_lines ps) = inl st' /\ n_default st' = n_default st ++ defaults l /\
    n_sections st' = n_sections st ++ others l /\ n_bad st' = false /\ b2 = bound st' /\
    (l = [] /\ st' = st \/ exists l0 name os k i, l = l0 ++ [(name, os)] /\
       st' = at_sect (n_default st ++ defaults l0) (n_sections st ++ others l0) name os k i false).
Proof.
  intros b ps l b2 P. induction P as [b|b p n name os b' ps l b2 Bn H Sk E P IH]; intros st -> Bd (F1 & F2 & F3 & F4).
  - exists st. cbn. rewrite !app_nil_r. auto 10.
  - cbn [flat_map]. unfold part_lines at 1. cbn [app Ini.read_lines]. rewrite <- app_assoc.
    set (D := n_default st) in *. set (S0 := n_sections st) in *.
    assert (NN : ~ In name (map fst S0)).
    { destruct (named_default (name, os)) eqn:N0.
      - unfold named_default in N0. cbn in N0. apply str_eqb_eq in N0 as ->. exact F3.
      - apply other_header with (l := l) in N0 as [_ Q]. rewrite Q, map_app in F2. apply NoDup_remove_2 in F2.
        intros I. apply F2. apply in_or_app. now left. }
    rewrite (read_header st n name _ H Bn NN). fold D S0. rewrite Bd. rewrite read_app.
    rewrite (read_filler _ (at_sect D S0 name [] [] n false) eq_refl Sk). rewrite read_app.
    destruct (read_entries _ _ _ _ E D S0 name [] [] n) as (k' & i' & R & Q).
    + intros _. exact NN.
    + reflexivity.
    + cbn [app]. unfold before. destruct (str_eqb name s_default) eqn:N0.
      * destruct (default_header l name os N0) as [Q _]. rewrite Q, app_assoc, map_app in F1. clear - F1.
        induction (map fst (D ++ os)) as [|a w IHw]; [constructor|]. cbn in F1. inversion F1; subst. constructor; [|auto].
        intros I. apply H1. apply in_or_app. now left.
      * destruct (other_header l name os N0) as [_ Q]. rewrite Q in F4. now inversion F4.
    + rewrite R. cbn [app] in *. destruct (IH (at_sect D S0 name os k' i' false) Q eq_refl) as (st' & R' & Q1 & Q2 & Q3 & Q4 & Q5).
      * unfold at_sect, D1, S1. cbn [n_default n_sections]. destruct (str_eqb name s_default) eqn:N0.
        -- destruct (default_header l name os N0) as [Q1 Q2]. rewrite Q1, Q2 in *. rewrite app_assoc in F1. repeat split; assumption.
        -- destruct (other_header l name os N0) as [Q1 Q2]. rewrite Q1, Q2 in *. repeat split.
           ++ exact F1.
           ++ now rewrite <- app_assoc.
           ++ rewrite map_app. intros I. apply in_app_or in I as [I|[I|[]]]; [now apply F3|]. cbn in I. subst name.
              now rewrite str_eqb_refl in N0.
           ++ now inversion F4.
      * exists st'. split; [exact R'|]. split; [|split; [|split; [exact Q3|split; [exact Q4|]]]].
        -- rewrite Q1. unfold at_sect, D1. cbn [n_default]. destruct (str_eqb name s_default) eqn:N0.
           ++ destruct (default_header l name os N0) as [-> _]. now rewrite app_assoc.
           ++ destruct (other_header l name os N0) as [-> _]. reflexivity.
        -- rewrite Q2. unfold at_sect, S1. cbn [n_sections]. destruct (str_eqb name s_default) eqn:N0.
           ++ destruct (default_header l name os N0) as [_ ->]. reflexivity.
           ++ destruct (other_header l name os N0) as [_ ->]. now rewrite <- app_assoc.
        -- right. destruct Q5 as [[-> ->]|(l0 & name' & os' & k2 & i2 & -> & ->)].
           ++ exists [], name, os, k', i'. cbn. rewrite !app_nil_r. now split.
           ++ exists ((name, os) :: l0), name', os', k2, i2. split; [reflexivity|].
              change (n_default (at_sect D S0 name os k' i' false)) with (D1 D name os).
              change (n_sections (at_sect D S0 name os k' i' false)) with (S1 S0 name os). unfold D1, S1. destruct (str_eqb name s_default) eqn:N0.
              ** destruct (default_header l0 name os N0) as [-> ->]. now rewrite app_assoc.
              ** destruct (other_header l0 name os N0) as [-> ->]. now rewrite <- app_assoc.
Qed.

(** ** From readings to files *)

Lemma bad_stays : forall st l st', read_line st l = inl st' -> n_bad st = true -> n_bad st' = true.
Proof.
  intros st l st' R B. unfold Ini.read_line in R.
  assert (IS : forall n f s, n_bad (in_sect n f s) = n_bad s) by (intros n f s; unfold in_sect; now destruct (str_eqb n s_default)).
  assert (AL : forall x s, n_bad (append_line x s) = n_bad s) by (intros x s; unfold append_line; destruct (n_sect s); [apply IS|reflexivity]).
  destruct (is_comment (strip U l)); [congruence|].
  destruct (is_nil (strip U l)); [destruct (in_value st); injection R as <-; rewrite ?AL; exact B|].
  destruct (in_value st && Nat.ltb (n_indent st) (indent U l)); [injection R as <-; rewrite AL; exact B|].
  cbn [n_sections n_sect n_default n_opt n_indent n_bad] in R.
  destruct (header_of (strip U l)) as [name|].
  - destruct (has name (n_sections st)); [discriminate|]. injection R as <-. exact B.
  - destruct (n_sect st) as [n|]; [|discriminate]. destruct (option_of (strip U l)) as [[k y]|].
    + destruct (has _ _); [discriminate|]. injection R as <-. rewrite IS. cbn [n_bad]. rewrite B. apply orb_true_r.
    + injection R as <-. reflexivity.
Qed.
Lemma bad_stays_all : forall ls st st', read_lines st ls = inl st' -> n_bad st' = false -> n_bad st = false.
Proof.
  induction ls as [|l ls IH]; intros st st' R B; cbn [Ini.read_lines] in R; [injection R as <-; exact B|].
  destruct (read_line st l) as [st1|] eqn:E; [|discriminate]. apply IH in R; auto.
  destruct (n_bad st) eqn:Q; [|reflexivity]. apply bad_stays in E; congruence.
Qed.

Lemma NoDup_last : forall (l : list str) x, NoDup l -> ~ In x l -> NoDup (l ++ [x]).
Proof.
  induction l as [|y l IH]; intros x N0 I; cbn; [repeat constructor; auto|]. inversion N0; subst. constructor.
  - intros J. apply in_app_or in J as [J|[J|[]]]; [auto|]. subst. apply I. now left.
  - apply IH; auto. intros J. apply I. now right.
Qed.
Lemma NoDup_front : forall (l l' : list str), NoDup (l ++ l') -> NoDup l.
Proof.
  induction l as [|y l IH]; intros l' N0; [constructor|]. cbn in N0. inversion N0; subst. constructor; [|eauto].
  intros J. apply H1. apply in_or_app. now left.
Qed.

(** Only names matter. *)
Lemma fresh_keys : forall D D' S0 S0' l, map fst D = map fst D' -> map fst S0 = map fst S0' -> fresh D S0 l -> fresh D' S0' l.
Proof.
  intros D D' S0 S0' l E1 E2 (F1 & F2 & F3 & F4). unfold fresh. rewrite !map_app in *. rewrite <- E1, <- E2. auto.
Qed.
Lemma D1_keys : forall D n o o', map fst o = map fst o' -> map fst (D1 D n o) = map fst (D1 D n o').
Proof. intros D n o o' E. unfold D1. destruct (str_eqb n s_default); [|reflexivity]. now rewrite !map_app, E. Qed.
Lemma D1_nil : forall D n, D1 D n [] = D.
Proof. intros D n. unfold D1. rewrite app_nil_r. now destruct (str_eqb n s_default). Qed.
Lemma S1_keys : forall S0 n o o', map fst (S1 S0 n o) = map fst (S1 S0 n o').
Proof. intros S0 n o o'. unfold S1. destruct (str_eqb n s_default); [reflexivity|]. now rewrite !map_app. Qed.
Lemma S1_default : forall S0 n o, ~ In s_default (map fst S0) -> ~ In s_default (map fst (S1 S0 n o)).
Proof.
  intros S0 n o H. unfold S1. destruct (str_eqb n s_default) eqn:E; [exact H|]. rewrite map_app. intros I.
  apply in_app_or in I as [I|[I|[]]]; auto. cbn in I. subst n. now rewrite str_eqb_refl in E.
Qed.
Lemma S1_once : forall S0 n o, new_name n S0 -> NoDup (map fst S0) -> NoDup (map fst (S1 S0 n o)).
Proof.
  intros S0 n o H N0. unfold S1. destruct (str_eqb n s_default) eqn:E; [exact N0|]. rewrite map_app. apply NoDup_last; auto.
Qed.
Lemma fresh_header : forall D S0 name os l, NoDup (map fst (before D name ++ os)) ->
  fresh (D1 D name os) (S1 S0 name os) l -> ~ In s_default (map fst S0) -> fresh D S0 ((name, os) :: l).
Proof.
  intros D S0 name os l N0 (F1 & F2 & F3 & F4) ND. unfold fresh, D1, S1, before in *. destruct (str_eqb name s_default) eqn:E.
  - destruct (default_header l name os E) as [-> ->]. rewrite app_assoc. auto.
  - destruct (other_header l name os E) as [-> ->]. rewrite <- app_assoc in F2. repeat split; auto.
Qed.

(** Below a header: the lines split into those that carry on the present value (or mean
    nothing, where there is none), the settings of the section, and further parts. *)
Definition splits (ls : list str) (D : raw_options) (S0 : list (str * raw_options)) (n : str) (o : raw_options) (k : str) (i : nat) : Prop :=
  exists ms xs es os b' ps l b2, ls = ms ++ flat_map entry_lines es ++ flat_map part_lines ps /\
    (k = [] -> Forall (filler U) ms) /\ (k <> [] -> more U i ms xs) /\
    entries U (if is_nil k then None else Some i) es os b' /\ parts U b' ps l b2 /\
    NoDup (map fst (before D n ++ o ++ os)) /\ fresh (D1 D n (o ++ os)) (S1 S0 n (o ++ os)) l.

Lemma splits_more : forall x y ls D S0 n o o' k i, splits ls D S0 n o' k i -> map fst o = map fst o' -> k <> [] ->
  (forall ms xs, more U i ms xs -> more U i (x :: ms) (y xs)) -> splits (x :: ls) D S0 n o k i.
Proof.
  intros x y ls D S0 n o o' k i (ms & xs & es & os & b' & ps & l & b2 & -> & _ & M & E & P & N1 & F) Ek K W.
  exists (x :: ms), (y xs), es, os, b', ps, l, b2. split; [reflexivity|]. split; [congruence|]. split; [auto|]. split; [exact E|].
  split; [exact P|]. split.
  - rewrite !map_app in *. now rewrite Ek.
  - revert F. apply fresh_keys; [apply D1_keys; now rewrite !map_app, Ek|apply S1_keys].
Qed.

Lemma read_split : forall ls D S0 n o o0 k acc i st', read_lines (at_sect D S0 n o k i false) ls = inl st' -> n_bad st' = false ->
  new_name n S0 -> ~ In s_default (map fst S0) -> NoDup (map fst (before D n ++ o)) -> NoDup (map fst (D1 D n o)) -> NoDup (map fst S0) ->
  (k = [] \/ o = o0 ++ [(k, acc)]) -> splits ls D S0 n o k i.
Proof.
  induction ls as [|x ls IH]; intros D S0 n o o0 k acc i st' R Bd NN ND0 N1 N2 N3 K.
  - exists [], [], [], [], (if is_nil k then None else Some i), [], [], (if is_nil k then None else Some i). split; [reflexivity|].
    split; [constructor|]. split; [constructor|]. split; [constructor|]. split; [constructor|]. rewrite !app_nil_r. split; [exact N1|].
    split; [cbn; now rewrite app_nil_r|]. split; [cbn; rewrite app_nil_r; now apply S1_once|]. split; [now apply S1_default|constructor].
  - cbn [Ini.read_lines] in R. destruct (read_line (at_sect D S0 n o k i false) x) as [st1|e] eqn:RL; [|discriminate].
    pose proof (bad_stays_all _ _ _ R Bd) as B1. unfold Ini.read_line in RL.
    assert (IV : in_value (at_sect D S0 n o k i false) = negb (is_nil k)) by reflexivity. rewrite IV in RL.
    change (n_sect (at_sect D S0 n o k i false)) with (Some n) in RL. change (n_default (at_sect D S0 n o k i false)) with (D1 D n o) in RL.
    change (n_sections (at_sect D S0 n o k i false)) with (S1 S0 n o) in RL. change (n_bad (at_sect D S0 n o k i false)) with false in RL.
    change (n_opt (at_sect D S0 n o k i false)) with k in RL. change (n_indent (at_sect D S0 n o k i false)) with i in RL.
    (* carrying on the value *)
    assert (GO : forall y, k <> [] -> st1 = append_line y (at_sect D S0 n o k i false) ->
      (forall ms xs, more U i ms xs -> more U i (x :: ms) (y :: xs)) -> splits (x :: ls) D S0 n o k i).
    { intros y Kn E W. destruct K as [K|K]; [congruence|]. subst o.
      assert (N0 : ~ In k (map fst (before D n ++ o0))).
      { rewrite app_assoc, map_app in N1. cbn in N1. apply NoDup_remove_2 in N1. now rewrite app_nil_r in N1. }
      rewrite append_line_at in E by assumption. subst st1.
      assert (Ek : map fst (o0 ++ [(k, acc)]) = map fst (o0 ++ [(k, acc ++ [y])])) by now rewrite !map_app.
      apply (splits_more x (cons y) ls D S0 n _ (o0 ++ [(k, acc ++ [y])]) k i); auto.
      apply (IH D S0 n _ o0 k (acc ++ [y]) i st'); auto.
      - rewrite map_app, <- Ek, <- map_app. exact N1.
      - rewrite <- (D1_keys D n _ _ Ek). exact N2. }
    assert (SKIP : filler U x -> st1 = at_sect D S0 n o k i false -> (k <> [] -> comment U x) -> splits (x :: ls) D S0 n o k i).
    { intros Fx -> Cx. destruct (IH D S0 n o o0 k acc i st' R Bd NN ND0 N1 N2 N3 K) as (ms & xs & es & os & b' & ps & l & b2 & -> & Fi & M & rest).
      exists (x :: ms), xs, es, os, b', ps, l, b2. split; [reflexivity|]. split; [intros Kn; constructor; auto|].
      split; [intros Kn; constructor; auto|exact rest]. }
    destruct (is_comment (strip U x)) eqn:C.
    { injection RL as <-. apply is_comment_iff in C. apply SKIP; [now right|reflexivity|auto]. }
    destruct (is_nil (strip U x)) eqn:Z.
    { assert (Sx : spaces U x) by (apply strip_nil; destruct (strip U x); [reflexivity|discriminate]).
      destruct k as [|c k]; cbn [is_nil negb] in RL; injection RL as <-.
      - apply SKIP; [now left|reflexivity|congruence].
      - apply (GO []); [discriminate|reflexivity|]. intros ms xs M. now apply m_blank. }
    apply is_nil_iff in Z.
    destruct (negb (is_nil k) && Nat.ltb i (indent U x)) eqn:Dp.
    { injection RL as <-. apply andb_true_iff in Dp as [Kn Dp]. apply Nat.ltb_lt in Dp. apply (GO (strip U x)).
      - apply is_nil_iff. now apply negb_true_iff.
      - reflexivity.
      - intros ms xs M. apply (m_words U i x ms (indent U x)); auto. apply words_iff. auto. }
    assert (Bw : below (if is_nil k then None else Some i) (indent U x)).
    { destruct (is_nil k); [exact I|]. cbn in *. now apply Nat.ltb_ge. }
    cbn [n_sections n_sect n_default n_opt n_indent n_bad] in RL.
    destruct (header_of (strip U x)) as [name|] eqn:H.
    { destruct (has name (S1 S0 n o)) eqn:HS; [discriminate|]. apply has_not in HS.
      assert (E : st1 = at_sect (D1 D n o) (S1 S0 n o) name [] [] (indent U x) false).
      { injection RL as <-. unfold at_sect. now rewrite D1_nil. }
      subst st1. assert (Hd : header U (indent U x) name x) by (apply header_iff; auto).
      destruct (IH (D1 D n o) (S1 S0 n o) name [] [] [] [] (indent U x) st' R Bd) as (ms & xs & es & os & b' & ps & l & b2 & -> & Fi & M & E & P & Nx & F).
      - intros _. exact HS.
      - now apply S1_default.
      - rewrite app_nil_r. unfold before. destruct (str_eqb name s_default); [exact N2|constructor].
      - rewrite D1_nil. exact N2.
      - now apply S1_once.
      - now left.
      - cbn [app is_nil] in *. exists [], [], [], [], (if is_nil k then None else Some i), (Part x ms es :: ps), ((name, os) :: l), b2.
        split; [cbn [flat_map app]; unfold part_lines at 2; cbn [p_line p_skip p_entries app]; now rewrite <- app_assoc|].
        split; [constructor|]. split; [constructor|]. split; [constructor|]. split.
        + apply (ps_cons U _ (Part x ms es) (indent U x) name os b' ps l b2); auto.
        + rewrite !app_nil_r. split; [exact N1|]. apply fresh_header; auto. now apply S1_default. }
    destruct (option_of (strip U x)) as [[k1 y]|] eqn:O; [|injection RL as <-; discriminate B1].
    set (key := py_lower U (rstrip U k1)) in *.
    change (Reader (D1 D n o) (S1 S0 n o) (Some n) k (indent U x) false) with (at_sect D S0 n o k (indent U x) false) in RL.
    rewrite (cur_opts_at _ _ _ _ _ _ _ NN) in RL. destruct (has key (before D n ++ o)) eqn:HK; [discriminate|]. apply has_not in HK.
    change (Reader (D1 D n o) (S1 S0 n o) (Some n) key (indent U x) (is_nil (rstrip U k1) || false))
      with (at_sect D S0 n o key (indent U x) (is_nil (rstrip U k1) || false)) in RL.
    rewrite (in_sect_app _ _ _ _ _ _ _ _ NN) in RL. injection RL as <-. cbn [n_bad at_sect] in B1.
    rewrite orb_false_r in B1. rewrite B1 in R. cbn [orb] in R. apply is_nil_iff in B1.
    assert (St : setting U (indent U x) key (strip U y) x) by (apply setting_iff; exists k1, y; auto 10).
    destruct (IH D S0 n (o ++ [(key, [strip U y])]) o key [strip U y] (indent U x) st' R Bd NN ND0)
      as (ms & xs & es & os & b' & ps & l & b2 & -> & _ & M & E & P & Nx & F).
    + rewrite app_assoc, map_app. apply NoDup_last; auto.
    + unfold D1 in *. unfold before in HK. destruct (str_eqb n s_default); [|exact N2]. rewrite app_assoc, map_app. apply NoDup_last; auto.
    + exact N3.
    + now right.
    + pose proof (setting_key _ _ _ _ St) as Kn. pose proof (proj2 (is_nil_iff key) Kn) as Zk. rewrite Zk in E.
      exists [], [], (Entry x ms :: es), ((key, strip U y :: xs) :: os), b', ps, l, b2.
      split; [cbn [flat_map app]; unfold entry_lines at 2; cbn [e_line e_more app]; now rewrite <- app_assoc|].
      split; [constructor|]. split; [constructor|]. split.
      * apply es_cons with (n := indent U x); auto.
      * split; [exact P|]. split.
        -- rewrite !map_app in *. rewrite <- app_assoc in Nx. exact Nx.
        -- revert F. apply fresh_keys; [apply D1_keys; rewrite !map_app, <- app_assoc; reflexivity|apply S1_keys].
Qed.

(** Above the first header. *)
Lemma read_pre : forall ls i st', read_lines (Reader [] [] None [] i false) ls = inl st' -> n_bad st' = false ->
  exists pre ps l b2, ls = pre ++ flat_map part_lines ps /\ Forall (filler U) pre /\ parts U None ps l b2 /\ fresh [] [] l.
Proof.
  induction ls as [|x ls IH]; intros i st' R Bd.
  - exists [], [], [], None. split; [reflexivity|]. split; [constructor|]. split; [constructor|].
    split; [constructor|]. split; [constructor|]. split; [intros []|constructor].
  - cbn [Ini.read_lines] in R. unfold Ini.read_line in R. cbn [in_value n_sect andb n_sections n_default n_opt n_indent n_bad] in R.
    assert (SKIP : filler U x -> read_lines (Reader [] [] None [] i false) ls = inl st' ->
      exists pre ps l b2, x :: ls = pre ++ flat_map part_lines ps /\ Forall (filler U) pre /\ parts U None ps l b2 /\ fresh [] [] l).
    { intros Fx Rx. destruct (IH i st' Rx Bd) as (pre & ps & l & b2 & -> & F & rest). exists (x :: pre), ps, l, b2.
      split; [reflexivity|]. split; [now constructor|exact rest]. }
    destruct (is_comment (strip U x)) eqn:C; [apply is_comment_iff in C; apply SKIP; [now right|exact R]|].
    destruct (is_nil (strip U x)) eqn:Z.
    { apply SKIP; [|exact R]. left. apply strip_nil. destruct (strip U x); [reflexivity|discriminate]. }
    apply is_nil_iff in Z. destruct (header_of (strip U x)) as [name|] eqn:H; [|discriminate]. cbn [has] in R.
    replace (Reader [] (if str_eqb name s_default then [] else [] ++ [(name, [])]) (Some name) [] (indent U x) false)
      with (at_sect [] [] name [] [] (indent U x) false) in R by (unfold at_sect; now rewrite D1_nil).
    destruct (read_split ls [] [] name [] [] [] [] (indent U x) st' R Bd) as (ms & xs & es & os & b' & ps & l & b2 & -> & Fi & _ & E & P & Nx & F).
    + intros _ [].
    + intros [].
    + rewrite app_nil_r. unfold before. destruct (str_eqb name s_default); constructor.
    + rewrite D1_nil. constructor.
    + constructor.
    + now left.
    + exists [], (Part x ms es :: ps), ((name, os) :: l), b2.
      split; [cbn [flat_map app]; unfold part_lines at 2; cbn [p_line p_skip p_entries app]; now rewrite <- app_assoc|].
      split; [constructor|]. split.
      * apply (ps_cons U None (Part x ms es) (indent U x) name os b' ps l b2); cbn; auto. apply header_iff. now split.
      * apply fresh_header; auto.
Qed.

Lemma fresh_distinct : forall l, fresh [] [] l <-> distinct l.
Proof. intros l. unfold fresh, distinct. cbn [app]. split; [intros (A & B & _ & C)|intros (A & B & C); split; [|split; [|split; [intros []|]]]]; auto. Qed.

Lemma join_glue : forall l, join_lines l = glue l.
Proof.
  intros [|x l]; [reflexivity|]. revert x. induction l as [|y l IH]; intros x; [cbn; now rewrite app_nil_r|].
  change (join_lines (x :: y :: l)) with (x ++ 10 :: join_lines (y :: l)). rewrite IH. reflexivity.
Qed.
Lemma valued_iff : forall p q, valued U p q <-> q = (fst p, join_value U (snd p)).
Proof.
  intros [k l] [k' v]. unfold valued, join_value. cbn [fst snd]. rewrite join_glue. split.
  - intros [-> H]. f_equal. symmetry. now apply rstrip_iff.
  - intros E. injection E as -> ->. split; [reflexivity|]. apply rstrip_spec.
Qed.
Lemma valued_all : forall o o', Forall2 (valued U) o o' <-> o' = join_options U o.
Proof.
  induction o as [|p o IH]; intros o'; split.
  - intros H. inversion H. reflexivity.
  - intros ->. constructor.
  - intros H. inversion H as [|? q ? o2 V R]; subst. apply valued_iff in V as ->. apply IH in R as ->. reflexivity.
  - intros ->. cbn. constructor; [now apply valued_iff|now apply IH].
Qed.
Lemma valued_sections : forall (l : list (str * raw_options)) l', Forall2 (fun p q => fst p = fst q /\ Forall2 (valued U) (snd p) (snd q)) l l' <->
  l' = map (fun p => (fst p, join_options U (snd p))) l.
Proof.
  induction l as [|[n o] l IH]; intros l'; split.
  - intros H. inversion H. reflexivity.
  - intros ->. constructor.
  - intros H. inversion H as [|? [n' o'] ? l2 [V W] R]; subst. cbn in V, W. apply valued_all in W as ->. apply IH in R as ->. now subst.
  - intros ->. cbn. constructor; [|now apply IH]. cbn. split; [reflexivity|now apply valued_all].
Qed.
End WithUnicode.

(** ** C119 *)

(** A file is read without an exception exactly if it is built as described, and the options
    and values are the ones it says. *)
Theorem C119_exact : forall U s F, names_stay U -> (read_text U s = inl F <-> says U s F).
Proof.
  intros U s F US. unfold read_text. split.
  - intros H. destruct (read_lines U ini_start (lines_of (newlines s))) as [st|] eqn:R; [|discriminate].
    destruct (n_bad st) eqn:B; [discriminate|]. injection H as <-.
    destruct (read_pre U US _ _ _ R B) as (pre & ps & l & b2 & E & Fp & P & Fr).
    rewrite E, read_app in R. rewrite (read_filler U _ ini_start eq_refl Fp) in R.
    destruct (read_parts U US _ _ _ _ P ini_start eq_refl eq_refl Fr) as (st' & R' & Q1 & Q2 & _).
    rewrite R in R'. injection R' as <-. cbn [ini_start n_default n_sections app] in Q1, Q2.
    apply (says_intro U s _ pre ps l b2); auto.
    + now apply file_lines_iff.
    + now apply fresh_distinct.
    + cbn [f_default]. apply valued_all. now rewrite Q1.
    + cbn [f_sections]. apply valued_sections. now rewrite Q2.
  - intros [pre ps l b2 FL Fp P Di V1 V2]. apply file_lines_iff in FL. rewrite FL, read_app.
    rewrite (read_filler U _ ini_start eq_refl Fp). apply fresh_distinct in Di.
    destruct (read_parts U US _ _ _ _ P ini_start eq_refl eq_refl Di) as (st' & -> & Q1 & Q2 & -> & _).
    rewrite Q1, Q2. cbn [ini_start n_default n_sections app]. apply valued_all in V1. apply valued_sections in V2.
    destruct F as [d sc]. cbn [f_default f_sections] in V1, V2. now subst.
Qed.
Print Assumptions C119_exact.

(** A file says one thing. *)
Theorem C119_one : forall U s F F', names_stay U -> says U s F -> says U s F' -> F = F'.
Proof. intros U s F F' US A B. apply C119_exact in A, B; auto. congruence. Qed.
Print Assumptions C119_one.

(** *** Files that stop the start *)

(** Before the first header there may be nothing but comments and blank lines. *)
Theorem C119_no_header : forall U s pre x rest, file_lines s (pre ++ x :: rest) -> Forall (filler U) pre ->
  ~ filler U x -> (forall n name, ~ header U n name x) -> read_text U s = inr INoHeader.
Proof.
  intros U s pre x rest FL Fp NF NH. unfold read_text. apply file_lines_iff in FL. rewrite FL, read_app.
  rewrite (read_filler U _ ini_start eq_refl Fp). cbn [read_lines]. unfold read_line.
  destruct (is_comment (strip U x)) eqn:C; [apply is_comment_iff in C; destruct NF; now right|].
  destruct (is_nil (strip U x)) eqn:Z; [destruct NF; left; apply strip_nil; destruct (strip U x); [reflexivity|discriminate]|].
  apply is_nil_iff in Z. destruct (header_of (strip U x)) as [name|] eqn:H; [|reflexivity].
  destruct (NH (indent U x) name). apply header_iff. now split.
Qed.
Print Assumptions C119_no_header.

(** The second time a section begins or a setting is made in it, reading stops, whatever
    follows. *)
Lemma read_some_parts : forall U pre ps l b, names_stay U -> Forall (filler U) pre -> parts U None ps l b -> distinct l ->
  exists st', read_lines U ini_start (pre ++ flat_map part_lines ps) = inl st' /\ n_sections st' = others l /\ b = bound st' /\
    (l = [] /\ st' = ini_start \/ exists l0 name os k i, l = l0 ++ [(name, os)] /\ st' = at_sect (defaults l0) (others l0) name os k i false).
Proof.
  intros U pre ps l b US Fp P Di. rewrite read_app, (read_filler U _ ini_start eq_refl Fp). apply fresh_distinct in Di.
  destruct (read_parts U US _ _ _ _ P ini_start eq_refl eq_refl Di) as (st' & R & _ & Q2 & _ & Q4 & Q5). exists st'. auto.
Qed.

Theorem C119_section_twice : forall U s pre ps l b x rest n name, names_stay U ->
  file_lines s (pre ++ flat_map part_lines ps ++ x :: rest) -> Forall (filler U) pre -> parts U None ps l b -> distinct l ->
  header U n name x -> below b n -> In name (map fst (others l)) -> read_text U s = inr ISection.
Proof.
  intros U s pre ps l b x rest n name US FL Fp P Di H B I. unfold read_text. apply file_lines_iff in FL. rewrite FL, app_assoc, read_app.
  destruct (read_some_parts U pre ps l b US Fp P Di) as (st & -> & Q & -> & _). cbn [read_lines].
  assert (R : read_line U st x = inr ISection); [|now rewrite R].
  pose proof (header_at _ _ _ _ H) as ->. apply header_iff in H as [NE H]. unfold read_line. apply bound_below in B.
  destruct (is_comment (strip U x)) eqn:C; [apply header_of_iff in H as (r & E & _); rewrite E in C; discriminate|].
  apply is_nil_iff in NE. rewrite NE, B, H. cbn [n_sections]. rewrite <- Q in I. apply has_iff in I. now rewrite I.
Qed.
Print Assumptions C119_section_twice.

Theorem C119_setting_twice : forall U s pre ps l name os b x rest n key v, names_stay U ->
  file_lines s (pre ++ flat_map part_lines ps ++ x :: rest) -> Forall (filler U) pre -> parts U None ps (l ++ [(name, os)]) b ->
  distinct (l ++ [(name, os)]) -> setting U n key v x -> below b n ->
  In key (map fst os) \/ name = s_default /\ In key (map fst (defaults l)) -> read_text U s = inr IOption.
Proof.
  intros U s pre ps l name os b x rest n key v US FL Fp P Di S B I. unfold read_text. apply file_lines_iff in FL. rewrite FL, app_assoc, read_app.
  destruct (read_some_parts U pre ps _ b US Fp P Di) as (st & -> & Q & -> & [[E _]|(l0 & name' & os' & k0 & i & E & ->)]); [now destruct l|].
  apply app_inj_tail in E as [<- E]. injection E as <- <-. cbn [read_lines].
  assert (R : read_line U (at_sect (defaults l) (others l) name os k0 i false) x = inr IOption); [|now rewrite R].
  apply setting_iff in S as (k & y & NE & NC & NH & O & K & Ek & -> & ->).
  apply bound_below in B. unfold read_line. rewrite NC. apply is_nil_iff in NE. rewrite NE, B, NH.
  change (n_sect (at_sect (defaults l) (others l) name os k0 i false)) with (Some name).
  change (n_default (at_sect (defaults l) (others l) name os k0 i false)) with (D1 (defaults l) name os).
  change (n_sections (at_sect (defaults l) (others l) name os k0 i false)) with (S1 (others l) name os).
  change (n_bad (at_sect (defaults l) (others l) name os k0 i false)) with false.
  change (n_opt (at_sect (defaults l) (others l) name os k0 i false)) with k0. cbn [n_sect n_default n_sections n_opt n_indent n_bad].
  rewrite O, <- Ek.
  change (Reader (D1 (defaults l) name os) (S1 (others l) name os) (Some name) k0 (indent U x) false)
    with (at_sect (defaults l) (others l) name os k0 (indent U x) false).
  rewrite cur_opts_at.
  - replace (has key (before (defaults l) name ++ os)) with true; [reflexivity|]. symmetry. apply has_iff. rewrite map_app. apply in_or_app.
    destruct I as [I|[-> I]]; [now right|]. left. exact I.
  - intros N0 J. destruct Di as (_ & D & _). unfold others in D. rewrite filter_app in D. cbn [filter] in D.
    unfold named_default at 2 in D. cbn [fst] in D. rewrite N0 in D. cbn [negb] in D. rewrite map_app in D. cbn in D.
    apply NoDup_remove_2 in D. rewrite app_nil_r in D. now apply D.
Qed.
Print Assumptions C119_setting_twice.

(** A file that is not there is no error: everything is as built in. *)
Theorem C119_missing : forall U, exists F, read_file U None = inl F /\
  forall B name sect, get_conf U F B name sect = CVal (match assoc (py_upper U name) B with Some v => v | None => None end).
Proof.
  intros U. eexists. split; [reflexivity|]. intros B name sect. unfold get_conf. cbn. 
  destruct (str_eqb s_default s_default) eqn:E; [reflexivity|]. now rewrite str_eqb_refl in E.
Qed.
Print Assumptions C119_missing.

(** *** Writing a file *)

(** A value with its '%' doubled. *)
Definition doubled (v : str) : str := flat_map (fun c => if c =? pct then [pct; pct] else [c]) v.
Definition setting_text (e : str) (p : str * str) : str := fst p ++ 61 :: doubled (snd p) ++ e.
Definition config_text (e : str) (c : list (str * list (str * str))) : str :=
  flat_map (fun p => 91 :: fst p ++ 93 :: e ++ flat_map (setting_text e) (snd p)) c.

Section Writing.
Variable U : unicode.

(** Names and values that can be written without care: keys without delimiters that do not
    look like comments or headers, and no spaces at the ends. *)
Definition plain_key (k : str) : Prop :=
  k <> [] /\ one_line k /\ ~ In 61 k /\ ~ In 58 k /\ starts U k /\ ends U k /\
  (forall c r, k = c :: r -> c <> 35 /\ c <> 59 /\ c <> 91).
Definition plain_value (v : str) : Prop := one_line v /\ starts U v /\ ends U v.
Definition plain (c : list (str * list (str * str))) : Prop :=
  Forall (fun p => fst p <> [] /\ one_line (fst p) /\ Forall (fun q => plain_key (fst q) /\ plain_value (snd q)) (snd p)) c /\
  NoDup (map (fun q => py_lower U (fst q)) (defaults c)) /\ NoDup (map fst (others c)) /\
  Forall (fun p => NoDup (map (fun q => py_lower U (fst q)) (snd p))) (others c).

(** The value given for a name: in its section, or under DEFAULT and not there. *)
Inductive given (c : list (str * list (str * str))) (name sect v : str) : Prop :=
| g_section : forall n os k, In (n, os) c -> n <> s_default -> n = py_upper U sect -> In (k, v) os ->
    py_lower U k = py_lower U (py_upper U name) -> given c name sect v
| g_default : forall os k, In (s_default, os) c -> In (k, v) os -> py_lower U k = py_lower U (py_upper U name) ->
    (forall os' k' v', In (py_upper U sect, os') c -> In (k', v') os' -> py_upper U sect <> s_default ->
      py_lower U k' <> py_lower U (py_upper U name)) -> given c name sect v.
End Writing.

Lemma doubled_in : forall c v, In c (doubled v) <-> In c v.
Proof.
  intros c v. unfold doubled. rewrite in_flat_map. split.
  - intros (x & I & H). destruct (x =? pct) eqn:E; [apply N.eqb_eq in E as ->|]; cbn in H; intuition; subst; auto.
  - intros I. exists c. split; [exact I|]. destruct (c =? pct) eqn:E; [apply N.eqb_eq in E as ->|]; now left.
Qed.
Lemma doubled_plain : forall U v, plain_value U v -> plain_value U (doubled v).
Proof.
  intros U v ([A B] & S & E). split; [split; now rewrite doubled_in|]. split.
  - intros c r H. destruct v as [|x v]; [discriminate|]. pose proof (S x v eq_refl) as X. cbn in H.
    destruct (x =? pct) eqn:Q; cbn in H; injection H as <- _; [reflexivity|exact X].
  - intros r c H. destruct (exists_last (l := v)) as (w & x & ->); [now intros ->; destruct r|].
    pose proof (E w x eq_refl) as X. unfold doubled in H. rewrite flat_map_app in H. cbn in H.
    destruct (x =? pct) eqn:Q; cbn in H.
    + change [pct; pct] with ([pct] ++ [pct]) in H. rewrite app_assoc in H. apply app_inj_tail in H as [_ <-]. reflexivity.
    + apply app_inj_tail in H as [_ <-]. exact X.
Qed.
Lemma doubled_expands : forall U env d v, expands U env (S d) (doubled v) v.
Proof.
  intros U env d. induction v as [|c v IH]; cbn; [constructor|]. destruct (c =? pct) eqn:E; cbn.
  - apply N.eqb_eq in E as ->. now constructor.
  - apply N.eqb_neq in E. now constructor.
Qed.

Lemma eol_line : forall e l s ls, e = [10] \/ e = [13; 10] -> one_line l -> file_lines s ls -> file_lines (l ++ e ++ s) (l :: ls).
Proof. intros e l s ls [->| ->] O F; cbn [app]; now constructor. Qed.

Definition entry_of (q : str * str) : entry := Entry (fst q ++ 61 :: doubled (snd q)) [].
Definition part_of (p : str * list (str * str)) : part := Part (91 :: fst p ++ [93]) [] (map entry_of (snd p)).
Definition raw_of (U : unicode) (q : str * str) : str * list str := (py_lower U (fst q), [doubled (snd q)]).
Definition conf_of (U : unicode) (q : str * str) : str * str := (py_lower U (fst q), doubled (snd q)).

Lemma one_line_app : forall a b, one_line a -> one_line b -> one_line (a ++ b).
Proof. intros a b [A B] [C D]. split; intros I; apply in_app_or in I as [I|I]; auto. Qed.
Lemma one_line_cons : forall c b, c <> 10 -> c <> 13 -> one_line b -> one_line (c :: b).
Proof. intros c b X Y [C D]. split; intros [I|I]; congruence || auto. Qed.
Lemma one_line_nil : one_line []. Proof. split; intros []. Qed.

Lemma header_shape : forall n e a b : str, (91 :: n ++ 93 :: e ++ a) ++ b = (91 :: n ++ [93]) ++ e ++ a ++ b.
Proof. intros n e a b. cbn [app]. f_equal. rewrite <- !app_assoc. cbn [app]. now rewrite <- !app_assoc. Qed.
Lemma setting_shape : forall k v e a b : str, ((k ++ 61 :: v ++ e) ++ a) ++ b = (k ++ 61 :: v) ++ e ++ a ++ b.
Proof. intros k v e a b. rewrite <- !app_assoc. cbn [app]. now rewrite <- !app_assoc. Qed.

Lemma config_lines : forall U e c, e = [10] \/ e = [13; 10] -> plain U c -> file_lines (config_text e c) (flat_map part_lines (map part_of c)).
Proof.
  intros U e c E (P & _). induction P as [|[n os] c (N0 & O & Q) _ IH]; [constructor|].
  cbn [fst snd] in *. unfold config_text. cbn [flat_map map fst snd]. fold (config_text e c). unfold part_lines at 1.
  cbn [p_line p_skip p_entries part_of fst snd].
  rewrite header_shape. cbn [app]. change (91 :: (n ++ [93]) ++ ?x) with ((91 :: n ++ [93]) ++ x). apply eol_line; auto.
  - apply one_line_cons; [discriminate|discriminate|]. apply one_line_app; [exact O|]. apply one_line_cons; [discriminate|discriminate|apply one_line_nil].
  - induction Q as [|[k v] os [(K & OK & _) (OV & _)] _ IQ]; [exact IH|]. cbn [fst snd] in *.
    cbn [flat_map map]. unfold setting_text at 1, entry_lines at 1. cbn [fst snd e_line e_more entry_of].
    rewrite setting_shape. cbn [app]. apply eol_line; auto. apply one_line_app; [exact OK|]. apply one_line_cons; [discriminate|discriminate|].
    destruct OV as [X Y]. split; now rewrite doubled_in.
Qed.

Lemma plain_setting : forall U q, plain_key U (fst q) -> plain_value U (snd q) ->
  setting U 0 (py_lower U (fst q)) (doubled (snd q)) (e_line (entry_of q)).
Proof.
  intros U [k v] (K & _ & N1 & N2 & S & E & H) V. apply doubled_plain in V. cbn [fst snd] in *. destruct V as (_ & SV & EV).
  unfold entry_of. cbn [e_line fst snd]. set (d := doubled v) in *.
  assert (T : trims U (k ++ 61 :: d) 0 (k ++ [] ++ 61 :: d)).
  { exists [], []. cbn [app]. rewrite app_nil_r. split; [reflexivity|]. split; [apply spaces_nil|]. split; [apply spaces_nil|]. split; [|split; [|reflexivity]].
    - intros c r Q. destruct k as [|x k]; [congruence|]. cbn in Q. injection Q as <- _. now apply (S x k).
    - intros r c Q. destruct (exists_last (l := 61 :: d)) as (w & x & Ed); [discriminate|]. rewrite Ed, app_assoc in Q. apply app_inj_tail in Q as [_ <-].
      destruct w as [|y w]; cbn in Ed; injection Ed as Ex Ed; [subst x; reflexivity|]. apply (EV w x Ed). }
  exists k, [], 61, d, 0%nat. split; [exact T|]. split; [now left|]. split; [exact N1|]. split; [exact N2|]. split; [apply spaces_nil|]. split; [exact K|].
  split; [exact E|]. split.
  { exists [], []. cbn [app]. rewrite app_nil_r. repeat split; auto; apply spaces_nil. }
  split; [reflexivity|]. destruct k as [|x k]; [congruence|]. destruct (H x k eq_refl) as (H1 & H2 & H3). pose proof (trims_strip _ _ _ _ T) as TS. split.
  - intros C. apply is_comment_iff in C. rewrite TS in C. cbn in C. apply orb_true_iff in C as [C|C]; apply N.eqb_eq in C; auto.
  - intros name C. pose proof (header_at _ _ _ _ C) as Z. rewrite Z in C. apply header_iff in C as [_ C]. rewrite TS in C. cbn in C.
    destruct (x =? 91) eqn:Q; [apply N.eqb_eq in Q; auto|discriminate].
Qed.
Lemma plain_header : forall U p, fst p <> [] -> header U 0 (fst p) (p_line (part_of p)).
Proof.
  intros U [n os] N0. cbn [fst] in *. exists []. cbn [p_line part_of fst]. split; [|split; [exact N0|intros []]].
  exists [], []. cbn [app]. rewrite app_nil_r. split; [reflexivity|]. split; [apply spaces_nil|]. split; [apply spaces_nil|]. split; [|split; [|reflexivity]].
  - intros c r Q. injection Q as <- _. reflexivity.
  - intros r c Q. change (91 :: n ++ [93]) with ((91 :: n) ++ [93]) in Q. apply app_inj_tail in Q as [_ <-]. reflexivity.
Qed.

Lemma plain_entries : forall U os b, (b = None \/ b = Some 0%nat) -> Forall (fun q => plain_key U (fst q) /\ plain_value U (snd q)) os ->
  exists b', (b' = None \/ b' = Some 0%nat) /\ entries U b (map entry_of os) (map (raw_of U) os) b'.
Proof.
  intros U os b B P. revert b B. induction P as [|q os [K V] _ IH]; intros b B.
  - exists b. split; [exact B|constructor].
  - destruct (IH (Some 0%nat) (or_intror eq_refl)) as (b' & B' & E). exists b'. split; [exact B'|]. cbn [map]. unfold raw_of at 1.
    apply es_cons with (n := 0%nat); auto.
    + destruct B as [->| ->]; cbn; auto.
    + now apply plain_setting.
    + constructor.
Qed.
Lemma plain_parts : forall U c b, (b = None \/ b = Some 0%nat) ->
  Forall (fun p => fst p <> [] /\ one_line (fst p) /\ Forall (fun q => plain_key U (fst q) /\ plain_value U (snd q)) (snd p)) c ->
  exists b', parts U b (map part_of c) (map (fun p => (fst p, map (raw_of U) (snd p))) c) b'.
Proof.
  intros U c b B P. revert b B. induction P as [|p c (N0 & _ & Q) _ IH]; intros b B.
  - exists b. constructor.
  - destruct (plain_entries U (snd p) None (or_introl eq_refl) Q) as (b1 & B1 & E). destruct (IH b1 B1) as (b' & R). exists b'. cbn [map].
    apply ps_cons with (n := 0%nat) (b' := b1); auto.
    + destruct B as [->| ->]; cbn; auto.
    + now apply plain_header.
    + constructor.
Qed.

Lemma defaults_map : forall A B (f : A -> B) (c : list (str * list A)), defaults (map (fun p => (fst p, map f (snd p))) c) = map f (defaults c).
Proof.
  intros A B f c. unfold defaults. induction c as [|[n os] c IH]; [reflexivity|]. cbn [map filter fst snd].
  change (named_default (n, map f os)) with (named_default (n, os)).
  destruct (named_default (n, os)); [|exact IH]. cbn [flat_map snd]. now rewrite map_app, IH.
Qed.
Lemma others_map : forall A B (f : A -> B) (c : list (str * list A)),
  others (map (fun p => (fst p, map f (snd p))) c) = map (fun p => (fst p, map f (snd p))) (others c).
Proof.
  intros A B f c. unfold others. induction c as [|[n os] c IH]; [reflexivity|]. cbn [map filter fst snd].
  change (named_default (n, map f os)) with (named_default (n, os)).
  destruct (named_default (n, os)); cbn [negb]; [exact IH|]. cbn [map fst snd]. now rewrite IH.
Qed.

(** Reading back what was written. *)
Lemma config_read : forall U e c, names_stay U -> e = [10] \/ e = [13; 10] -> plain U c ->
  read_text U (config_text e c) = inl {| f_default := map (conf_of U) (defaults c);
    f_sections := map (fun p => (fst p, map (conf_of U) (snd p))) (others c) |}.
Proof.
  intros U e c US E P. apply C119_exact; [exact US|]. destruct P as (P & N1 & N2 & N3).
  destruct (plain_parts U c None (or_introl eq_refl) P) as (b & R).
  assert (RC : forall os, Forall (fun q => plain_key U (fst q) /\ plain_value U (snd q)) os -> Forall2 (valued U) (map (raw_of U) os) (map (conf_of U) os)).
  { induction 1 as [|q os [_ V] _ IH]; [constructor|]. cbn [map]. constructor; [|exact IH]. apply doubled_plain in V as (_ & _ & V).
    split; [reflexivity|]. exists []. cbn. rewrite !app_nil_r. repeat split; [apply spaces_nil|exact V]. }
  apply (says_intro U _ _ [] (map part_of c) (map (fun p => (fst p, map (raw_of U) (snd p))) c) b).
  - apply (config_lines U); auto. repeat split; auto.
  - constructor.
  - exact R.
  - split; [|split].
    + rewrite defaults_map, map_map. exact N1.
    + rewrite others_map, map_map. exact N2.
    + rewrite others_map. clear - N3. induction N3 as [|p l N0 _ IH]; [constructor|]. cbn [map]. constructor; [|exact IH]. cbn [snd]. rewrite map_map. exact N0.
  - cbn [f_default]. rewrite defaults_map. apply RC. clear - P. unfold defaults. induction P as [|p c (_ & _ & Q) _ IH]; [constructor|]. cbn [filter].
    destruct (named_default p); [|exact IH]. cbn [flat_map]. apply Forall_app. now split.
  - cbn [f_sections]. rewrite others_map. clear - P RC. unfold others. induction P as [|p c (_ & _ & Q) _ IH]; [constructor|]. cbn [filter].
    destruct (negb (named_default p)); [|exact IH]. cbn [map]. constructor; [|exact IH]. cbn. split; [reflexivity|now apply RC].
Qed.

Lemma in_binds : forall A k (v : A) l, NoDup (map fst l) -> In (k, v) l -> binds k v l.
Proof.
  induction l as [|[x w] l IH]; intros N0 I; [destruct I|]. destruct I as [I|I]; inversion N0; subst.
  - injection I as -> ->. constructor.
  - constructor; [|auto]. intros ->. apply H1. apply in_map_iff. now exists (k, v).
Qed.

(** Every value of one line without spaces at its ends can be written into the file, with its
    '%' doubled, and is what get_conf gives, whatever else is in the file. *)
Theorem C119_used : forall U e c B name sect v, names_stay U -> e = [10] \/ e = [13; 10] -> plain U c -> upper_stable U name ->
  given U c name sect v ->
  exists F, read_text U (config_text e c) = inl F /\ get_conf U F B name sect = CVal (Some v).
Proof.
  intros U e c B name sect v US E P ST G. eexists. split; [now apply config_read|].
  destruct P as (P & N1 & N2 & N3).
  assert (FO : file_ok {| f_default := map (conf_of U) (defaults c); f_sections := map (fun p => (fst p, map (conf_of U) (snd p))) (others c) |}).
  { unfold file_ok, unbound. cbn [f_sections]. rewrite map_map. apply others_default. }
  apply C55_value; auto.
  assert (OB : forall n os, In (n, os) c -> n <> s_default -> binds n (map (conf_of U) os) (map (fun p => (fst p, map (conf_of U) (snd p))) (others c))).
  { intros n os I N0. apply in_binds; [rewrite map_map; exact N2|]. apply in_map_iff. exists (n, os). split; [reflexivity|].
    apply filter_In. split; [exact I|]. unfold named_default. cbn [fst]. destruct (str_eqb n s_default) eqn:Q; [apply str_eqb_eq in Q; congruence|reflexivity]. }
  destruct G as [n os k I N0 -> Ik Ek|os k I Ik Ek No].
  - apply cv_section with (o := map (conf_of U) os) (t := doubled v).
    + now apply OB.
    + rewrite <- Ek. apply in_binds.
      * rewrite map_map. rewrite Forall_forall in N3. apply (N3 (py_upper U sect, os)). apply filter_In. split; [exact I|].
        unfold named_default. cbn [fst]. destruct (str_eqb _ s_default) eqn:Q; [apply str_eqb_eq in Q; congruence|reflexivity].
      * apply in_map_iff. now exists (k, v).
    + apply doubled_expands.
  - assert (D : exists o, (binds (py_upper U sect) o (map (fun p => (fst p, map (conf_of U) (snd p))) (others c)) \/
        unbound (py_upper U sect) (map (fun p => (fst p, map (conf_of U) (snd p))) (others c)) /\ o = []) /\
        unbound (py_lower U (py_upper U name)) o).
    { destruct (in_dec (list_eq_dec N.eq_dec) (py_upper U sect) (map fst (others c))) as [J|J].
      - apply in_map_iff in J as ([n' os'] & Q & J). cbn in Q. subst n'. apply filter_In in J as [J Q].
        assert (N0 : py_upper U sect <> s_default) by (intros Z; unfold named_default in Q; cbn [fst] in Q; rewrite Z, str_eqb_refl in Q; discriminate).
        exists (map (conf_of U) os'). split; [left; now apply OB|]. unfold unbound. rewrite map_map. intros X. apply in_map_iff in X as ([k' v'] & X & Y).
        exact (No os' k' v' J Y N0 X).
      - exists []. split; [right; split; [|reflexivity]|intros []]. unfold unbound. rewrite map_map. exact J. }
    destruct D as (o & D1' & D2'). apply cv_default with (o := o) (t := doubled v); cbn [f_sections f_default]; auto.
    + rewrite <- Ek. apply in_binds; [rewrite map_map; exact N1|]. apply in_map_iff. exists (k, v). split; [reflexivity|].
      apply in_flat_map. exists (s_default, os). split; [|exact Ik]. apply filter_In. split; [exact I|]. apply str_eqb_refl.
    + apply doubled_expands.
Qed.
Print Assumptions C119_used.

(** *** What may surprise *)

Lemma stay0 : names_stay ascii_only.
Proof.
  intros s N0. unfold py_lower. destruct (is_ascii s); [|exact N0]. destruct s; [now destruct N0|discriminate].
Qed.

(** A setting that is indented more than the one above it is no setting but belongs to the
    value above it; no exception tells. *)
Theorem C119_indent_refuted : exists s F, read_text ascii_only s = inl F /\
  file_lines s [lit "[AAUTH]"; lit "KEY_FILE=keys/key.bin"; lit " KEY_PASS=secret"] /\
  get_conf ascii_only F service_defaults (lit "KEY_PASS") (lit "AAUTH") = CVal None /\
  get_conf ascii_only F service_defaults (lit "KEY_FILE") (lit "AAUTH") = CVal (Some (lit "keys/key.bin" ++ 10 :: lit "KEY_PASS=secret")).
Proof.
  exists (lit "[AAUTH]" ++ 10 :: lit "KEY_FILE=keys/key.bin" ++ 10 :: lit " KEY_PASS=secret"). eexists.
  split; [vm_compute; reflexivity|]. split; [apply file_lines_iff; vm_compute; reflexivity|]. split; vm_compute; reflexivity.
Qed.
Print Assumptions C119_indent_refuted.

(** A comment behind a value is part of the value. *)
Theorem C119_comment_refuted : exists s F, read_text ascii_only s = inl F /\
  file_lines s [lit "[LADON]"; lit "SERVICE_PORT = 8888 ; the usual port"] /\
  get_conf ascii_only F service_defaults (lit "SERVICE_PORT") (lit "LADON") = CVal (Some (lit "8888 ; the usual port")).
Proof.
  exists (lit "[LADON]" ++ 10 :: lit "SERVICE_PORT = 8888 ; the usual port"). eexists.
  split; [vm_compute; reflexivity|]. split; [apply file_lines_iff|]; vm_compute; reflexivity.
Qed.
Print Assumptions C119_comment_refuted.

(** A password with a '%' that is not doubled is read, but cannot be used. *)
Theorem C119_percent_refuted : exists s F, read_text ascii_only s = inl F /\
  file_lines s [lit "[DEFAULT]"; lit "DB_PASS=50%off"] /\
  get_conf ascii_only F service_defaults (lit "DB_PASS") (lit "AAUTH") = CErr CSyntax.
Proof.
  exists (lit "[DEFAULT]" ++ 10 :: lit "DB_PASS=50%off"). eexists.
  split; [vm_compute; reflexivity|]. split; [apply file_lines_iff|]; vm_compute; reflexivity.
Qed.
Print Assumptions C119_percent_refuted.

(** ** Examples *)

(** A file with comments, continued values and both delimiters. *)
Definition ex_ini : str := flat_map (fun l => lit l ++ [10])
  ["; services"; "[DEFAULT]"; "DB_NAME = hgaa"; "  "; "# the log"; "Log_File:  x.log"; "   more"; "      [lines]"; ""; "  # not this"; "   end"; "[AAUTH] see below";
   "  a = 1"; " b : 2=3"; "c ="]%string.
Definition ex_conf_file : conf_file := {|
  f_default := [(lit "db_name", lit "hgaa"); (lit "log_file", lit "x.log" ++ 10 :: lit "more" ++ 10 :: lit "[lines]" ++ 10 :: 10 :: lit "end")];
  f_sections := [(lit "AAUTH", [(lit "a", lit "1"); (lit "b", lit "2=3"); (lit "c", [])])] |}.
Example ex_says : says ascii_only ex_ini ex_conf_file.
Proof. apply C119_exact; [apply stay0|]. vm_compute. reflexivity. Qed.

Definition ex_written : list (str * list (str * str)) :=
  [(lit "DEFAULT", [(lit "DB_PASS", lit "50%off"); (lit "LOG_FILE", lit "x.log")]); (lit "AAUTH", [(lit "log_file", []); (lit "A B", lit "#[x] = y")])].
Ltac in_plain := let H := fresh in intros H; cbn in H; intuition discriminate.
Example ex_plain : plain ascii_only ex_written.
Proof.
  assert (ST : forall c r (x : str), x = c :: r -> isspace ascii_only (hd 0 x) = false -> isspace ascii_only c = false) by (intros c r x -> H; exact H).
  assert (EN : forall r c (x : str), x = r ++ [c] -> isspace ascii_only (last x 0) = false -> isspace ascii_only c = false) by (intros r c x -> H; now rewrite last_last in H).
  assert (PV : forall v, ~ In 10 v -> ~ In 13 v -> isspace ascii_only (hd 0 v) = false -> isspace ascii_only (last v 0) = false -> plain_value ascii_only v).
  { intros v A B C D. split; [now split|]. split; [intros c r E; now apply (ST c r v)|intros r c E; now apply (EN r c v)]. }
  assert (PK : forall k, k <> [] -> ~ In 10 k -> ~ In 13 k -> ~ In 61 k -> ~ In 58 k -> isspace ascii_only (hd 0 k) = false -> isspace ascii_only (last k 0) = false ->
    hd 0 k <> 35 -> hd 0 k <> 59 -> hd 0 k <> 91 -> plain_key ascii_only k).
  { intros k N0 A B C D E F G H I. repeat split; auto; try (intros c r Q; now apply (ST c r k)); try (intros r c Q; now apply (EN r c k)); subst; auto. }
  split; [|split; [|split]].
  - assert (OL : forall v : str, ~ In 10 v -> ~ In 13 v -> one_line v) by (intros v A B; now split).
    constructor; [|constructor; [|constructor]]; cbn [fst snd]; (split; [discriminate|]; split; [apply OL; in_plain|]);
      (constructor; [|constructor; [|constructor]]); cbn [fst snd];
      (split; [apply PK; [discriminate|in_plain|in_plain|in_plain|in_plain|reflexivity|reflexivity|discriminate|discriminate|discriminate]
              |apply PV; [in_plain|in_plain|reflexivity|reflexivity]]).
  - vm_compute. repeat constructor; in_plain.
  - vm_compute. repeat constructor; in_plain.
  - vm_compute. repeat constructor; in_plain.
Qed.
Example ex_used : given ascii_only ex_written (lit "db_pass") (lit "aauth") (lit "50%off").
Proof.
  apply g_default with (os := [(lit "DB_PASS", lit "50%off"); (lit "LOG_FILE", lit "x.log")]) (k := lit "DB_PASS"); [now left|now left|reflexivity|].
  intros os' k' v' I J _. vm_compute in I. destruct I as [I|[I|[]]]; [discriminate I|]. injection I as <-. destruct J as [J|[J|[]]]; injection J as <- <-; vm_compute; discriminate.
Qed.
Example ex_stops :
  read_text ascii_only (lit "DB_NAME=x") = inr INoHeader /\
  read_text ascii_only (lit "[A]" ++ 10 :: lit "[B]" ++ 10 :: lit "[A]") = inr ISection /\
  read_text ascii_only (lit "[A]" ++ 10 :: lit "k=1" ++ 10 :: lit "K=2") = inr IOption /\
  read_text ascii_only (lit "[A]" ++ 10 :: lit "k") = inr IParsing.
Proof. vm_compute. repeat split; reflexivity. Qed.

(** hgaa/confs/services.ini and clients.ini; the lines end with CR LF, the last one with the file.
    They say what the models of services and clients start from. *)
Fixpoint crlf (l : list string) : str :=
  match l with [] => [] | [x] => lit x | x :: r => lit x ++ [13; 10] ++ crlf r end.
Definition services_ini : str := crlf [
  "[DEFAULT]"; "DB_TYPE=mysql"; "DB_NAME=hgaa"; "DB_USER=apps"; "DB_PASS=PUTYOURPASSWORDHERE"; "DB_PORT=3306";
  "DB_HOST=localhost"; "LOG_LEVEL=ALL"; "LOG_FILE=hgaa_service.log";
  "LOG_FORMAT=%%(asctime)s:    [%%(levelname)s: %%(name)s]    %%(message)s"; "LOG_DATE_FORMAT=%%Y-%%m-%%d %%I:%%M:%%S %%p";
  "LOG_NAME=services"; "LOG_STDOUT=True"; "SQL_LOG_LEVEL=ALL"; "SQL_LOG_FILE=sql.log";
  "SQL_LOG_FORMAT=%%(asctime)s:    [%%(levelname)s: %%(name)s]    %%(message)s";
  "SQL_LOG_DATE_FORMAT=%%Y-%%m-%%d %%I:%%M:%%S %%p"; "SQL_LOG_STDOUT=True"; "CLEAN_LOG_ON_START=True"; "SERVICE_ENABLED=True";
  "PASS_PEPPER=PUTYOURPEPPERHERE"; ""; "[TOOLS]"; "LOG_LEVEL=ALL"; "LOG_NAME=tools"; "LOG_FILE=None"; "LOG_STDOUT=False"; "";
  "[LADON]"; "LOG_NAME=ladon"; "LOG_LEVEL=ALL"; "LOG_FILE=ladon.log";
  "LOG_FORMAT=%%(asctime)s:    [%%(levelname)s: %%(name)s]    %%(message)s"; "LOG_DATE_FORMAT=%%Y-%%m-%%d %%I:%%M:%%S %%p";
  "LOG_STDOUT=True"; "SERVICE_PORT=8888"; "SERVICE_HOST="; ""; "[AAUTH]"; "LOG_LEVEL=ALL"; "LOG_NAME=aauth"; "LOG_FILE=None";
  "LOG_STDOUT=False"; "SERVICE_ENABLED=True"; "AAUTH_ID=localhost"; "A_URI=hgabac://localhost:8888"; "AC_EXPIRE_LENGTH=3600";
  "REV_URL="; "KEY_PASS=PUTYOURPASSWORDHERE"; "KEY_FILE=keys/aauth_rsa_key.bin"; ""; "[PAUTH]"; "LOG_LEVEL=ALL";
  "LOG_NAME=pauth"; "LOG_FILE=None"; "LOG_STDOUT=False"; "SERVICE_ENABLED=True"; "PAUTH_NAME=localhost";
  "PAUTH_UID=hgabac://localhost:8888"]%string.
Definition clients_ini : str := crlf [
  "[DEFAULT]"; "LOG_LEVEL=ALL"; "LOG_FILE=hgaa_client.log";
  "LOG_FORMAT=%%(asctime)s:    [%%(levelname)s: %%(name)s]    %%(message)s"; "LOG_DATE_FORMAT=%%Y-%%m-%%d %%I:%%M:%%S %%p";
  "LOG_NAME=clients"; "LOG_STDOUT=True"; "CLEAN_LOG_ON_START=True"; ""; "[TOOLS]"; "LOG_LEVEL=ALL"; "LOG_NAME=tools";
  "LOG_FILE=None"; "LOG_STDOUT=False"; ""; "[AAUTH]"; "LOG_LEVEL=ALL"; "LOG_NAME=aauth"; "LOG_FILE=None"; "LOG_STDOUT=False";
  "CLIENT_TYPE=JSONWSP"; "SERVICE_DESCRIPTION=http://localhost:8888/AttributeAuthority/jsonwsp/description"; "CRED_TYPE=0";
  "CRED_USER=Dan"; "CRED_PASS=admin"; "KEY_SIZE=2048"; ""; "[PAUTH]"; "LOG_LEVEL=ALL"; "LOG_NAME=aauth"; "LOG_FILE=None";
  "LOG_STDOUT=False"; "CLIENT_TYPE=JSONWSP"; "SERVICE_DESCRIPTION=http://localhost:8888/PolicyAuthority/jsonwsp/description";
  ""]%string.
Example ex_services_ini : read_text ascii_only services_ini = inl shipped_services.
Proof. vm_compute. reflexivity. Qed.
Example ex_clients_ini : read_text ascii_only clients_ini = inl shipped_clients.
Proof. vm_compute. reflexivity. Qed.
