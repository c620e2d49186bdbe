(** * LoggingProps: theorems about log files and log levels (C77-C81) *)

From Coq Require Import NArith ZArith List Bool Lia String Sorted.
From Verif Require Import PyBase LexSpec LexProofs LexCase Config ConfigProps Logging.
Import ListNotations.
Open Scope Z_scope.

(** ** Specification *)

Definition lines_in (st : logs) (f : str) (l : list line) : Prop :=
  binds f l (l_files st) \/ (unbound f (l_files st) /\ l = []).

(** A dotted name is below its prefixes. *)
Inductive under : str -> str -> Prop :=
| un_self : forall n, under n n
| un_dot : forall m r, under (m ++ dot :: r) m.
Definition known (st : logs) (n : str) : Prop := exists g, binds n g (l_loggers st).
(** The loggers a record passes, from the one it is given to upwards. *)
Definition path (st : logs) (n : str) (l : list str) : Prop :=
  exists own, (forall m, In m own <-> known st m /\ under n m) /\
    StronglySorted (fun a b : str => (List.length b < List.length a)%nat) own /\
    ((exists p, binds (last own n) p (l_adopted st) /\ l = own ++ [p]) \/ (unbound (last own n) (l_adopted st) /\ l = own)).
(** The lowest level that is written: the first level set on the path, or WARNING. *)
Inductive threshold (st : logs) : list str -> Z -> Prop :=
| th_root : threshold st [] 30
| th_set : forall m l g, binds m g (l_loggers st) -> lg_level g <> 0 -> threshold st (m :: l) (lg_level g)
| th_unset : forall m l t, (forall g, binds m g (l_loggers st) -> lg_level g = 0) -> threshold st l t -> threshold st (m :: l) t.
(** The handlers met on a path. *)
Inductive met (st : logs) : list str -> list handler -> Prop :=
| mt_nil : met st [] []
| mt_known : forall m l g hs, binds m g (l_loggers st) -> met st l hs -> met st (m :: l) (lg_handlers g ++ hs)
| mt_unknown : forall m l hs, unbound m (l_loggers st) -> met st l hs -> met st (m :: l) hs.
Inductive to_file (f : str) : list handler -> list handler -> Prop :=
| tf_nil : to_file f [] []
| tf_keep : forall h l r, h_file h = Some f -> to_file f l r -> to_file f (h :: l) (h :: r)
| tf_skip : forall h l r, h_file h <> Some f -> to_file f l r -> to_file f (h :: l) r.

(** ** Lemmas *)

Lemma assoc_set : forall A k j (v : A) l, assoc j (set_assoc k v l) = if str_eqb k j then Some v else assoc j l.
Proof.
  intros A k j v l. unfold set_assoc. destruct (existsb (fun p => str_eqb (fst p) k) l) eqn:E.
  - induction l as [|[x w] l IH]; [discriminate|]. cbn [map fst assoc]. cbn [existsb fst] in E.
    destruct (str_eqb x k) eqn:X.
    + apply str_eqb_eq in X as ->. cbn [assoc fst]. destruct (str_eqb k j) eqn:KJ; [reflexivity|].
      destruct (existsb (fun p => str_eqb (fst p) k) l) eqn:E2; [now rewrite IH|].
      clear IH E. induction l as [|[y u] l IH]; [reflexivity|]. cbn [existsb fst] in E2. apply orb_false_iff in E2 as [E1 E2].
      cbn [map fst]. rewrite E1. cbn [assoc]. now rewrite IH.
    + cbn [assoc]. cbn [orb] in E. rewrite (IH E). destruct (str_eqb x j) eqn:XJ; [|reflexivity].
      destruct (str_eqb k j) eqn:KJ; [|reflexivity]. apply str_eqb_eq in XJ, KJ. subst. now rewrite str_eqb_refl in X.
  - induction l as [|[x w] l IH]; cbn [app assoc fst].
    + now destruct (str_eqb k j).
    + cbn [existsb fst] in E. apply orb_false_iff in E as [X E]. rewrite (IH E).
      destruct (str_eqb x j) eqn:XJ; [|reflexivity]. destruct (str_eqb k j) eqn:KJ; [|reflexivity].
      apply str_eqb_eq in XJ, KJ. subst. now rewrite str_eqb_refl in X.
Qed.

Definition content (st : logs) (f : str) : list line := match assoc f (l_files st) with Some x => x | None => [] end.
Lemma lines_content : forall st f l, lines_in st f l <-> l = content st f.
Proof.
  intros st f l. unfold lines_in, content. destruct (assoc f (l_files st)) as [x|] eqn:E.
  - split.
    + intros [B|[B _]]; [apply assoc_binds in B; congruence|apply assoc_unbound in B; congruence].
    + intros ->. left. now apply assoc_binds.
  - split.
    + intros [B|[_ B]]; [apply assoc_binds in B; congruence|exact B].
    + intros ->. right. split; [now apply assoc_unbound|reflexivity].
Qed.

(** The parts of the state a record does not touch. *)
Definition same_setup (a b : logs) : Prop :=
  l_loggers a = l_loggers b /\ l_adopted a = l_adopted b /\ l_service a = l_service b /\ l_client a = l_client b.
Lemma write_setup : forall r st h, same_setup (write r st h) st.
Proof. intros r st h. unfold write. destruct (h_file h); repeat split. Qed.
Lemma writes_setup : forall r hs st, same_setup (fold_left (write r) hs st) st.
Proof.
  intros r hs. induction hs as [|h hs IH]; intros st; [repeat split|]. cbn [fold_left].
  destruct (IH (write r st h)) as (A & B & C & D), (write_setup r st h) as (A' & B' & C' & D'). repeat split; congruence.
Qed.
Lemma log_setup : forall n lvl msg st, same_setup (log n lvl msg st) st.
Proof. intros. unfold log. destruct (lvl <? effective st n); [repeat split|apply writes_setup]. Qed.

Definition on_file (f : str) (h : handler) : bool := match h_file h with Some g => str_eqb g f | None => false end.
Definition on_stream (h : handler) : bool := match h_file h with Some _ => false | None => true end.

Lemma write_content : forall r st h f, content (write r st h) f = content st f ++ (if on_file f h then [(h, r)] else []).
Proof.
  intros r st h f. unfold write, content, on_file. destruct (h_file h) as [g|] eqn:H; cbn [l_files]; [|now rewrite app_nil_r].
  rewrite assoc_set. destruct (str_eqb g f) eqn:E; [apply str_eqb_eq in E as ->; reflexivity|now rewrite app_nil_r].
Qed.
Lemma writes_content : forall r hs st f,
  content (fold_left (write r) hs st) f = content st f ++ map (fun h => (h, r)) (filter (on_file f) hs).
Proof.
  intros r hs. induction hs as [|h hs IH]; intros st f; cbn [fold_left filter map]; [now rewrite app_nil_r|].
  rewrite IH, write_content. destruct (on_file f h); cbn [map]; rewrite <- app_assoc; reflexivity.
Qed.
Lemma write_stream : forall r st h, l_stream (write r st h) = l_stream st ++ (if on_stream h then [(h, r)] else []).
Proof. intros r st h. unfold write, on_stream. destruct (h_file h); cbn [l_stream]; [now rewrite app_nil_r|reflexivity]. Qed.
Lemma writes_stream : forall r hs st,
  l_stream (fold_left (write r) hs st) = l_stream st ++ map (fun h => (h, r)) (filter on_stream hs).
Proof.
  intros r hs. induction hs as [|h hs IH]; intros st; cbn [fold_left filter map]; [now rewrite app_nil_r|].
  rewrite IH, write_stream. destruct (on_stream h); cbn [map]; rewrite <- app_assoc; reflexivity.
Qed.

Lemma log_content : forall n lvl msg st f, content (log n lvl msg st) f = content st f ++
  (if effective st n <=? lvl then map (fun h => (h, Rec n lvl msg)) (filter (on_file f) (flat_map (handlers_of st) (family st n))) else []).
Proof.
  intros n lvl msg st f. unfold log. rewrite Z.leb_antisym. destruct (lvl <? effective st n); cbn [negb]; [now rewrite app_nil_r|].
  apply writes_content.
Qed.
Lemma log_stream : forall n lvl msg st, l_stream (log n lvl msg st) = l_stream st ++
  (if effective st n <=? lvl then map (fun h => (h, Rec n lvl msg)) (filter on_stream (flat_map (handlers_of st) (family st n))) else []).
Proof.
  intros n lvl msg st. unfold log. rewrite Z.leb_antisym. destruct (lvl <? effective st n); cbn [negb]; [now rewrite app_nil_r|].
  apply writes_stream.
Qed.

(** *** Families *)

Lemma prefixes_from_in : forall r d m, In m (prefixes_from d r) <-> exists a b, r = a ++ dot :: b /\ m = d ++ a.
Proof.
  induction r as [|c r IH]; intros d m; cbn [prefixes_from].
  - split; [intros []|]. intros (a & b & E & _). destruct a; discriminate.
  - destruct (N.eqb_spec c dot) as [->|C].
    + cbn [In]. rewrite IH. split.
      * intros [<-|(a & b & -> & ->)]; [exists [], r; now rewrite app_nil_r|].
        exists (dot :: a), b. split; [reflexivity|]. now rewrite <- app_assoc.
      * intros ([|x a] & b & E & ->); [left; now rewrite app_nil_r|]. right. cbn [app] in E. injection E as <- E.
        exists a, b. split; [exact E|]. now rewrite <- app_assoc.
    + rewrite IH. split.
      * intros (a & b & -> & ->). exists (c :: a), b. split; [reflexivity|]. now rewrite <- app_assoc.
      * intros ([|x a] & b & E & ->); cbn [app] in E; injection E as E1 E2; [congruence|]. subst x.
        exists a, b. split; [exact E2|]. now rewrite <- app_assoc.
Qed.
Lemma prefixes_in : forall n m, In m (prefixes n) <-> exists r, n = m ++ dot :: r.
Proof.
  intros n m. unfold prefixes. rewrite prefixes_from_in. split.
  - intros (a & b & -> & ->). now exists b.
  - intros (r & ->). now exists m, r.
Qed.

Definition longer (a b : str) : Prop := (List.length b < List.length a)%nat.
Lemma sorted_snoc : forall (A : Type) (R : A -> A -> Prop) l x, StronglySorted R l -> Forall (fun y => R y x) l -> StronglySorted R (l ++ [x]).
Proof.
  intros A R l x. induction l as [|y l IH]; intros S F; cbn [app]; [constructor; constructor|].
  inversion S; subst. inversion F; subst. constructor; [auto|]. rewrite Forall_app. auto.
Qed.
Lemma prefixes_from_long : forall r d, Forall (fun m => (List.length d <= List.length m)%nat) (prefixes_from d r).
Proof.
  induction r as [|c r IH]; intros d; cbn [prefixes_from]; [constructor|].
  assert (F : Forall (fun m => (List.length d <= List.length m)%nat) (prefixes_from (d ++ [c]) r)).
  { eapply Forall_impl; [|apply IH]. intros m H. rewrite app_length in H. cbn [List.length] in H. lia. }
  destruct (c =? dot)%N; [constructor; [lia|exact F]|exact F].
Qed.
Lemma prefixes_from_sorted : forall r d, StronglySorted longer (rev (prefixes_from d r)).
Proof.
  induction r as [|c r IH]; intros d; cbn [prefixes_from]; [constructor|].
  destruct (c =? dot)%N; [|apply IH]. cbn [rev]. apply sorted_snoc; [apply IH|].
  apply Forall_rev. eapply Forall_impl; [|apply prefixes_from_long]. intros m H. unfold longer. rewrite app_length in H. cbn [List.length] in H. lia.
Qed.
Lemma above_sorted : forall n, StronglySorted longer (n :: rev (prefixes n)).
Proof.
  intros n. constructor; [apply prefixes_from_sorted|]. apply Forall_rev, Forall_forall. intros m H.
  apply prefixes_in in H as (r & ->). unfold longer. rewrite app_length. cbn [List.length]. lia.
Qed.
Lemma filter_sorted : forall (A : Type) (R : A -> A -> Prop) f l, StronglySorted R l -> StronglySorted R (filter f l).
Proof.
  intros A R f l S. induction S as [|x l S IH F]; [constructor|]. cbn [filter]. destruct (f x); [|exact IH].
  constructor; [exact IH|]. apply Forall_forall. intros y Y. apply filter_In in Y as [Y _]. rewrite Forall_forall in F. auto.
Qed.
Lemma sorted_unique : forall l l' : list str, StronglySorted longer l -> StronglySorted longer l' ->
  (forall x, In x l <-> In x l') -> l = l'.
Proof.
  induction l as [|a l IH]; intros [|b l'] S S' E.
  - reflexivity.
  - destruct (proj2 (E b)). now left.
  - destruct (proj1 (E a)). now left.
  - inversion S as [|? ? S1 F1]; subst. inversion S' as [|? ? S2 F2]; subst. rewrite Forall_forall in F1, F2.
    assert (AB : a = b).
    { destruct (proj1 (E a) (or_introl eq_refl)) as [A|A]; [congruence|].
      destruct (proj2 (E b) (or_introl eq_refl)) as [B|B]; [congruence|].
      specialize (F1 _ B). specialize (F2 _ A). unfold longer in *. lia. }
    subst b. f_equal. apply IH; auto. intros x.
    assert (NA : forall l0, (forall y, In y l0 -> longer a y) -> ~ In a l0).
    { intros l0 F I. specialize (F _ I). unfold longer in F. lia. }
    specialize (E x). cbn [In] in E. split; intros I.
    + destruct (proj1 E (or_intror I)) as [<-|]; [destruct (NA _ F1 I)|assumption].
    + destruct (proj2 E (or_intror I)) as [<-|]; [destruct (NA _ F2 I)|assumption].
Qed.

Definition is_known (st : logs) (m : str) : bool := match assoc m (l_loggers st) with Some _ => true | None => false end.
Definition own (st : logs) (n : str) : list str := filter (is_known st) (n :: rev (prefixes n)).
Lemma is_known_spec : forall st m, is_known st m = true <-> known st m.
Proof.
  intros st m. unfold is_known, known. destruct (assoc m (l_loggers st)) as [g|] eqn:E.
  - split; [|reflexivity]. intros _. exists g. now apply assoc_binds.
  - split; [discriminate|]. intros [g B]. apply assoc_binds in B. congruence.
Qed.
Lemma own_in : forall st n m, In m (own st n) <-> known st m /\ under n m.
Proof.
  intros st n m. unfold own. rewrite filter_In, is_known_spec. cbn [In]. rewrite <- in_rev, prefixes_in. split.
  - intros [[<-|(r & ->)] K]; (split; [exact K|constructor]).
  - intros [K H]. split; [|exact K]. inversion H; subst; [now left|right; now exists r].
Qed.
Lemma family_path : forall st n l, path st n l <-> l = family st n.
Proof.
  intros st n l. unfold family. cbv zeta. fold (is_known st). change (filter _ (n :: rev (prefixes n))) with (own st n).
  assert (SO : StronglySorted longer (own st n)) by (apply filter_sorted, above_sorted).
  split.
  - intros (o & I & S & H).
    assert (o = own st n) as -> by (apply sorted_unique; auto; intros m; now rewrite I, own_in).
    destruct H as [(p & B & ->)|[B ->]].
    + apply assoc_binds in B. now rewrite B.
    + apply assoc_unbound in B. now rewrite B, app_nil_r.
  - intros ->. exists (own st n). split; [intros m; apply own_in|]. split; [exact SO|].
    destruct (assoc (last (own st n) n) (l_adopted st)) as [p|] eqn:E.
    + left. exists p. split; [now apply assoc_binds|reflexivity].
    + right. split; [now apply assoc_unbound|now rewrite app_nil_r].
Qed.

Lemma threshold_spec : forall st l t, threshold st l t <->
  t = match find (fun m => negb (level_of st m =? 0)) l with Some m => level_of st m | None => 30 end.
Proof.
  intros st l. induction l as [|m l IH]; intros t; cbn [find].
  - split; [intros H; now inversion H|intros ->; constructor].
  - assert (L : level_of st m = match assoc m (l_loggers st) with Some g => lg_level g | None => 0 end) by reflexivity.
    destruct (Z.eqb_spec (level_of st m) 0) as [Z0|Z0]; cbn [negb]; rewrite L in Z0.
    + assert (A : forall g, binds m g (l_loggers st) -> lg_level g = 0).
      { intros g B. apply assoc_binds in B. now rewrite B in Z0. }
      split.
      * intros H. inversion H as [|? ? g' B N|? ? ? _ T]; subst; [destruct (N (A _ B))|now apply IH].
      * intros H. apply th_unset; [exact A|now apply IH].
    + rewrite L. destruct (assoc m (l_loggers st)) as [g|] eqn:E; [|congruence]. split.
      * intros H. inversion H as [|? ? g' B N|? ? ? A T]; subst; [apply assoc_binds in B; congruence|].
        destruct Z0. apply A. now apply assoc_binds.
      * intros ->. apply th_set; [now apply assoc_binds|exact Z0].
Qed.
Lemma met_spec : forall st l hs, met st l hs <-> hs = flat_map (handlers_of st) l.
Proof.
  intros st l. induction l as [|m l IH]; intros hs; cbn [flat_map].
  - split; [intros H; now inversion H|intros ->; constructor].
  - unfold handlers_of at 1. destruct (assoc m (l_loggers st)) as [g|] eqn:E.
    + split.
      * intros H. inversion H as [|? ? g' hs' B M|? ? ? B M]; subst; [|apply assoc_unbound in B; congruence].
        apply assoc_binds in B. assert (g' = g) as -> by congruence. f_equal. now apply IH.
      * intros ->. apply mt_known; [now apply assoc_binds|now apply IH].
    + split.
      * intros H. inversion H as [|? ? g' hs' B M|? ? ? B M]; subst; [apply assoc_binds in B; congruence|]. now apply IH.
      * intros ->. apply mt_unknown; [now apply assoc_unbound|now apply IH].
Qed.
Lemma to_file_spec : forall f l r, to_file f l r <-> r = filter (on_file f) l.
Proof.
  intros f l. induction l as [|h l IH]; intros r; cbn [filter].
  - split; [intros H; now inversion H|intros ->; constructor].
  - assert (X : on_file f h = true <-> h_file h = Some f).
    { unfold on_file. destruct (h_file h) as [g|]; [|split; discriminate]. rewrite str_eqb_eq. split; congruence. }
    destruct (on_file f h).
    + split.
      * intros H. inversion H; subst; [f_equal; now apply IH|]. destruct H2. now apply X.
      * intros ->. apply tf_keep; [now apply X|now apply IH].
    + split.
      * intros H. inversion H; subst; [apply X in H2; discriminate|now apply IH].
      * intros ->. apply tf_skip; [intros Q; apply X in Q; discriminate|now apply IH].
Qed.

(** ** C78: what a record is written to *)

(** A record is written to the files of the handlers on its path, once for each handler, if
    its level is at least the threshold, and otherwise nowhere. *)
Theorem C78_written : forall st n lvl msg l t hs f fs before, path st n l -> threshold st l t -> met st l hs ->
  to_file f hs fs -> lines_in st f before ->
  lines_in (log n lvl msg st) f (before ++ if t <=? lvl then map (fun h => (h, Rec n lvl msg)) fs else []).
Proof.
  intros st n lvl msg l t hs f fs before P T M F L. apply lines_content in L as ->. apply lines_content.
  apply family_path in P as ->. apply threshold_spec in T as ->. apply met_spec in M as ->. apply to_file_spec in F as ->.
  now rewrite log_content.
Qed.
Print Assumptions C78_written.

(** The same for the stream. *)
Theorem C78_stream : forall st n lvl msg l t hs, path st n l -> threshold st l t -> met st l hs ->
  exists hs', (forall h, In h hs' <-> In h hs /\ h_file h = None) /\
    l_stream (log n lvl msg st) = l_stream st ++ if t <=? lvl then map (fun h => (h, Rec n lvl msg)) hs' else [].
Proof.
  intros st n lvl msg l t hs P T M. exists (filter on_stream hs). split.
  - intros h. rewrite filter_In. unfold on_stream. destruct (h_file h); split; intros [A B]; try discriminate; auto.
  - apply family_path in P as ->. apply threshold_spec in T as ->. apply met_spec in M as ->. now rewrite log_stream.
Qed.
Print Assumptions C78_stream.

(** *** make_logger *)

Section WithConf.
Variable U : unicode.
Variables FS FC : conf_file.
Variable dir : str.
Variable can_open : str -> bool.
Variable now : str.

(** The value of an option of the services or of the clients. *)
Definition option_is (service : bool) (sect name v : str) : Prop :=
  (if service then get_conf U FS service_defaults name sect else get_conf U FC client_defaults name sect) = CVal (Some v).
(** The options of a logger. *)
Record opts : Type := Opts { o_file : str; o_level : str; o_format : str; o_name : str; o_dates : str; o_out : str; o_clean : str }.
Definition options_are (service : bool) (sect : str) (o : opts) : Prop :=
  option_is service sect (lit "LOG_FILE") (o_file o) /\ option_is service sect (lit "LOG_LEVEL") (o_level o) /\
  option_is service sect (lit "LOG_FORMAT") (o_format o) /\ option_is service sect (lit "LOG_NAME") (o_name o) /\
  option_is service sect (lit "LOG_DATE_FORMAT") (o_dates o) /\ option_is service sect (lit "LOG_STDOUT") (o_out o) /\
  option_is service sect (lit "CLEAN_LOG_ON_START") (o_clean o).
Definition truthy (s : str) : Prop := py_upper U s = lit "TRUE".

Lemma option_conf : forall service sect name v, option_is service sect name v <-> conf U FS FC service name sect = LOk (Some v).
Proof.
  intros service sect name v. unfold option_is, conf.
  destruct service; [destruct (get_conf U FS service_defaults name sect) as [w|]|destruct (get_conf U FC client_defaults name sect) as [w|]];
    (split; [intros [= ->]; reflexivity || discriminate|intros [= ->]; reflexivity || discriminate]).
Qed.

Definition settings_of (o : opts) : settings :=
  Settings (log_target U dir (Some (o_file o))) (str_to_log_level U (o_level o)) (Some (o_format o)) (o_name o) (Some (o_dates o))
           (is_true U (o_out o)) (is_true U (o_clean o)).
Lemma read_eq : forall service sect o, options_are service sect o -> read_settings U FS FC dir service sect = LOk (settings_of o).
Proof.
  intros service sect o (A & B & C & D & E & F & G). rewrite option_conf in *. unfold read_settings.
  rewrite A. unfold lbind at 1. rewrite B. unfold lbind at 1. unfold text at 1, lbind at 1. rewrite C. unfold lbind at 1. rewrite D. unfold lbind at 1.
  rewrite E. unfold lbind at 1. rewrite F. unfold lbind at 1. rewrite G. unfold lbind at 1. reflexivity.
Qed.

Definition own_handlers (s : settings) : list handler :=
  (match s_file s with Some f => [Handler (Some f) (s_format s) (s_dates s)] | None => [] end) ++
  (if s_stdout s then [Handler None (s_format s) (s_dates s)] else []).

(** Loggers after a change of one of them. *)
Definition changed (a b : logs) (n : str) (g : logger) : Prop :=
  (forall m, assoc m (l_loggers b) = if str_eqb n m then Some g else assoc m (l_loggers a)) /\
  l_adopted b = l_adopted a /\ l_service b = l_service a /\ l_client b = l_client a.

Lemma with_logger_changed : forall n g st, changed st (with_logger n g st) n g.
Proof. intros n g st. split; [|repeat split]. intros m. cbn [with_logger l_loggers]. apply assoc_set. Qed.
Lemma changed_twice : forall a b c n g g', changed a b n g -> changed b c n g' -> changed a c n g'.
Proof.
  intros a b c n g g' (A & A1 & A2 & A3) (B & B1 & B2 & B3). split; [|repeat split; congruence].
  intros m. rewrite B, A. now destruct (str_eqb n m).
Qed.
Lemma changed_setup : forall a b c n g, changed a b n g -> same_setup c b -> changed a c n g.
Proof. intros a b c n g (A & A1 & A2 & A3) (B & B1 & B2 & B3). split; [|repeat split; congruence]. intros m. now rewrite B. Qed.
Lemma setup_changed : forall a b c n g, same_setup b a -> changed b c n g -> changed a c n g.
Proof. intros a b c n g (B & B1 & B2 & B3) (A & A1 & A2 & A3). split; [|repeat split; congruence]. intros m. now rewrite A, B. Qed.
Lemma changed_get : forall a b n g, changed a b n g -> level_of b n = lg_level g /\ handlers_of b n = lg_handlers g.
Proof. intros a b n g (A & _). unfold level_of, handlers_of. now rewrite A, str_eqb_refl. Qed.
Lemma get_logger_changed : forall n st, changed st (get_logger n st) n (Logger (level_of st n) (handlers_of st n)).
Proof.
  intros n st. unfold get_logger, level_of, handlers_of. destruct (assoc n (l_loggers st)) as [[lv hs]|] eqn:E; split; try (repeat split; fail).
  - intros m. destruct (str_eqb n m) eqn:X; [|reflexivity]. apply str_eqb_eq in X as <-. exact E.
  - intros m. cbn [l_loggers]. induction (l_loggers st) as [|[x w] l IH]; cbn [app assoc] in *; [now destruct (str_eqb n m)|].
    destruct (str_eqb x n) eqn:X; [discriminate|]. rewrite (IH E). destruct (str_eqb x m) eqn:XM; [|reflexivity].
    destruct (str_eqb n m) eqn:NM; [|reflexivity]. apply str_eqb_eq in XM, NM. subst. now rewrite str_eqb_refl in X.
Qed.
Lemma open_file_setup : forall f t st, same_setup (open_file f t st) st.
Proof. intros. repeat split. Qed.

Lemma add_handlers_changed : forall n s st st', add_handlers can_open n s st = (st', LOk tt) ->
  changed st st' n (Logger (level_of st n) (handlers_of st n ++ own_handlers s)) \/ (own_handlers s = [] /\ same_setup st' st).
Proof.
  intros n s st st' H. unfold add_handlers in H. cbv zeta in H. unfold own_handlers.
  assert (AH : forall h a, changed a (add_handler n h a) n (Logger (level_of a n) (handlers_of a n ++ [h]))) by (intros; apply with_logger_changed).
  destruct (s_file s) as [f|].
  - left. destruct (can_open f); [|discriminate]. injection H as <-.
    set (b := open_file f (s_clean s) st).
    assert (C : changed st (add_handler n (Handler (Some f) (s_format s) (s_dates s)) b) n
                  (Logger (level_of st n) (handlers_of st n ++ [Handler (Some f) (s_format s) (s_dates s)]))).
    { apply (setup_changed st b); [repeat split|]. pose proof (AH (Handler (Some f) (s_format s) (s_dates s)) b) as X. exact X. }
    destruct (s_stdout s); [|rewrite app_nil_r; exact C].
    eapply changed_twice; [exact C|]. destruct (changed_get _ _ _ _ C) as [L1 H1]. cbn [lg_level lg_handlers] in L1, H1.
    pose proof (AH (Handler None (s_format s) (s_dates s)) (add_handler n (Handler (Some f) (s_format s) (s_dates s)) b)) as X.
    rewrite L1, H1, <- app_assoc in X. exact X.
  - injection H as <-. destruct (s_stdout s); [left; apply AH|right; repeat split].
Qed.

Lemma announce_setup : forall service name st, same_setup (announce service name st) st.
Proof. intros service name st. unfold announce. destruct (if service then l_service st else l_client st); apply log_setup. Qed.

(** The loggers after a successful make_logger. *)
Lemma made : forall name service p st st' n o, options_are service (py_upper U name) o ->
  make_logger U FS FC dir can_open now name service (Some p) st = (st', LOk n) ->
  n = child p (o_name o) /\
  changed st st' n (Logger (str_to_log_level U (o_level o)) (handlers_of st n ++ own_handlers (settings_of o))).
Proof.
  intros name service p st st' n o O H. unfold make_logger in H. rewrite (read_eq _ _ _ O) in H. cbv zeta iota in H.
  change (s_name (settings_of o)) with (o_name o) in H. change (s_level (settings_of o)) with (str_to_log_level U (o_level o)) in H.
  set (n0 := child p (o_name o)) in *. set (a := announce service (o_name o) st) in *.
  set (b := set_level n0 (str_to_log_level U (o_level o)) (get_logger n0 a)) in *.
  destruct (add_handlers can_open n0 (settings_of o) b) as [c [[]|e]] eqn:AH; [|discriminate]. injection H as <- <-.
  split; [reflexivity|].
  assert (A : same_setup a st) by apply announce_setup.
  assert (HB : changed st b n0 (Logger (str_to_log_level U (o_level o)) (handlers_of st n0))).
  { apply (setup_changed st a); [exact A|]. eapply changed_twice; [apply get_logger_changed|].
    destruct (changed_get _ _ _ _ (get_logger_changed n0 a)) as [_ G]. cbn [lg_handlers] in G.
    unfold b, set_level. rewrite G. replace (handlers_of st n0) with (handlers_of a n0) by (unfold handlers_of; now rewrite (proj1 A)).
    apply with_logger_changed. }
  apply (changed_setup st c); [|apply log_setup].
  destruct (changed_get _ _ _ _ HB) as [L1 H1]. cbn [lg_level lg_handlers] in L1, H1.
  apply add_handlers_changed in AH as [AH|[AH S]].
  - eapply changed_twice; [exact HB|]. rewrite L1, H1 in AH. exact AH.
  - rewrite AH, app_nil_r. now apply (changed_setup st b).
Qed.

Lemma prefixes_from_child : forall p d nm, ~ In dot nm -> prefixes_from d (p ++ dot :: nm) = prefixes_from d p ++ [d ++ p].
Proof.
  intros p. induction p as [|c p IH]; intros d nm N; cbn [app prefixes_from].
  - replace (dot =? dot)%N with true by reflexivity. rewrite app_nil_r. f_equal.
    generalize (d ++ [dot]). induction nm as [|x nm IH]; intros e; [reflexivity|]. cbn [prefixes_from].
    destruct (N.eqb_spec x dot) as [->|X]; [destruct N; now left|]. apply IH. intros I. apply N. now right.
  - rewrite !(IH _ _ N), <- !app_assoc. destruct (c =? dot)%N; reflexivity.
Qed.
Lemma prefixes_child : forall p nm, ~ In dot nm -> prefixes (child p nm) = prefixes p ++ [p].
Proof. intros p nm N. unfold prefixes, child. now rewrite prefixes_from_child. Qed.

Lemma last_indep : forall (A : Type) (l : list A) d d', l <> [] -> last l d = last l d'.
Proof. intros A l d d' N. induction l as [|a [|b l] IH]; [congruence|reflexivity|]. cbn [last] in *. apply IH. discriminate. Qed.

Lemma family_child : forall st st' p nm g, ~ In dot nm -> known st p -> changed st st' (child p nm) g ->
  family st' (child p nm) = child p nm :: family st p.
Proof.
  intros st st' p nm g N K (C & CA & _). set (n := child p nm) in *.
  assert (O : own st' n = n :: own st p).
  { assert (PN : prefixes n = prefixes p ++ [p]) by (apply prefixes_child; exact N).
    unfold own. rewrite PN, rev_app_distr. cbn [rev app filter].
    assert (KN : is_known st' n = true) by (unfold is_known; now rewrite C, str_eqb_refl). rewrite KN. f_equal.
    change (filter (is_known st') (p :: rev (prefixes p)) = filter (is_known st) (p :: rev (prefixes p))).
    apply filter_ext_in. intros m I. unfold is_known. rewrite C. destruct (str_eqb n m) eqn:E; [|reflexivity].
    apply str_eqb_eq in E. exfalso.
    assert (L : (List.length m <= List.length p)%nat).
    { cbn [In] in I. destruct I as [<-|I]; [lia|]. rewrite <- in_rev, prefixes_in in I. destruct I as (r & ->). rewrite app_length. cbn [List.length]. lia. }
    rewrite <- E in L. unfold n, child in L. rewrite app_length in L. cbn [List.length] in L. lia. }
  unfold family. cbv zeta. fold (is_known st') (is_known st).
  change (filter (is_known st') (n :: rev (prefixes n))) with (own st' n). change (filter (is_known st) (p :: rev (prefixes p))) with (own st p).
  assert (NE : own st p <> []).
  { intros E. assert (I : In p (own st p)) by (apply own_in; split; [exact K|constructor]). rewrite E in I. destruct I. }
  rewrite O, CA, (last_indep _ (own st p) p n NE). destruct (own st p) as [|q r]; [congruence|]. reflexivity.
Qed.

Lemma others_same : forall st st' n g l, changed st st' n g -> ~ In n l ->
  flat_map (handlers_of st') l = flat_map (handlers_of st) l /\
  find (fun m => negb (level_of st' m =? 0)) l = find (fun m => negb (level_of st m =? 0)) l /\
  (forall m, In m l -> level_of st' m = level_of st m).
Proof.
  intros st st' n g l (C & _) N.
  assert (X : forall m, In m l -> assoc m (l_loggers st') = assoc m (l_loggers st)).
  { intros m I. rewrite C. destruct (str_eqb n m) eqn:E; [apply str_eqb_eq in E; congruence|reflexivity]. }
  clear C N. induction l as [|m l IH]; [repeat split; intros ? []|].
  assert (XM := X m (or_introl eq_refl)). destruct (IH (fun m I => X m (or_intror I))) as (A & B & D). clear IH X.
  assert (LM : level_of st' m = level_of st m) by (unfold level_of; now rewrite XM).
  cbn [flat_map find]. rewrite LM, A, B. repeat split.
  - unfold handlers_of at 1 3. now rewrite XM.
  - intros k [<-|I]; auto.
Qed.

(** The parents set by hand are loggers. *)
Definition adopted_known (st : logs) : Prop := forall m q, binds m q (l_adopted st) -> known st q.
Lemma family_known : forall st n m, adopted_known st -> In m (family st n) -> known st m.
Proof.
  intros st n m AK I. unfold family in I. cbv zeta in I. apply in_app_or in I as [I|I].
  - apply filter_In in I as [_ I]. now apply is_known_spec.
  - destruct (assoc _ (l_adopted st)) as [q|] eqn:E; [|destruct I]. destruct I as [<-|[]]. apply assoc_binds in E. exact (AK _ _ E).
Qed.

(** A new logger, of a component with a LOG_NAME without dots: a record given to it is
    written to its own file, if it has one, and to what its parent writes to, if its level
    is at least the LOG_LEVEL; if that is not the name of a level, the threshold of the
    parent counts. *)
Theorem C78_component : forall name service p st st' n o l t hs lvl msg f fs before,
  options_are service (py_upper U name) o -> ~ In dot (o_name o) -> known st p -> ~ known st (child p (o_name o)) ->
  adopted_known st ->
  make_logger U FS FC dir can_open now name service (Some p) st = (st', LOk n) ->
  path st p l -> threshold st l t -> met st l hs -> to_file f hs fs -> lines_in st' f before ->
  let level := str_to_log_level U (o_level o) in
  let mine := match log_target U dir (Some (o_file o)) with
              | Some g => if str_eqb g f then [Handler (Some f) (Some (o_format o)) (Some (o_dates o))] else []
              | None => []
              end in
  lines_in (log n lvl msg st') f
    (before ++ if (if level =? 0 then t else level) <=? lvl then map (fun h => (h, Rec n lvl msg)) (mine ++ fs) else []).
Proof.
  intros name service p st st' n o l t hs lvl msg f fs before O ND K NK AK H P T M F L level mine.
  destruct (made _ _ _ _ _ _ _ O H) as [-> C]. set (n := child p (o_name o)) in *.
  assert (HN : handlers_of st n = []).
  { unfold handlers_of. destruct (assoc n (l_loggers st)) as [g|] eqn:E; [|reflexivity]. destruct NK. exists g. now apply assoc_binds. }
  rewrite HN in C. cbn [app] in C.
  pose proof (family_child _ _ _ _ _ ND K C) as FC'. fold n in FC'.
  apply family_path in P. subst l. apply threshold_spec in T. apply met_spec in M. apply to_file_spec in F. subst hs fs.
  apply lines_content in L as ->. apply lines_content. rewrite log_content, FC'.
  assert (NL : ~ In n (family st p)).
  { intros I. apply NK. apply family_known with (n := p); assumption. }
  destruct (others_same _ _ _ _ (family st p) C NL) as (HS & FD & LV). destruct (changed_get _ _ _ _ C) as [LN HN']. cbn [lg_level lg_handlers] in LN, HN'.
  cbn [flat_map]. rewrite HN', HS, filter_app, !map_app.
  assert (EF : effective st' n = if level =? 0 then t else level).
  { unfold effective. rewrite FC'. cbn [find]. rewrite LN. fold level. destruct (level =? 0) eqn:Z0; cbn [negb].
    - rewrite FD, T. destruct (find _ (family st p)) as [m|] eqn:FM; [|reflexivity]. apply LV. now apply find_some in FM.
    - exact LN. }
  rewrite EF. destruct (_ <=? lvl); [|reflexivity]. f_equal. f_equal. f_equal.
  unfold own_handlers, mine. cbn [settings_of s_file s_format s_dates s_stdout]. destruct (log_target U dir (Some (o_file o))) as [g|].
  - cbn [app filter on_file h_file]. destruct (str_eqb g f) eqn:E.
    + apply str_eqb_eq in E as ->. destruct (is_true U (o_out o)); reflexivity.
    + destruct (is_true U (o_out o)); reflexivity.
  - destruct (is_true U (o_out o)); reflexivity.
Qed.

(** ** C80: lines that are lost *)

Definition keeps (st st' : logs) : Prop := forall f before, lines_in st f before -> exists more, lines_in st' f (before ++ more).
(** What a program can do with the loggers. *)
Inductive step : logs -> logs -> Prop :=
| sp_log : forall n lvl msg st, step st (log n lvl msg st)
| sp_make : forall name service parent st, step st (fst (make_logger U FS FC dir can_open now name service parent st)).
Inductive steps : logs -> logs -> Prop :=
| ss_none : forall st, steps st st
| ss_more : forall a b c, step a b -> steps b c -> steps a c.

Lemma keeps_content : forall a b, keeps a b <-> forall f, exists more, content b f = content a f ++ more.
Proof.
  intros a b. unfold keeps. split.
  - intros H f. destruct (H f (content a f)) as [m L]; [now apply lines_content|]. exists m. apply lines_content in L. now symmetry.
  - intros H f l L. apply lines_content in L as ->. destruct (H f) as [m E]. exists m. apply lines_content. now symmetry.
Qed.
Lemma keeps_refl : forall a, keeps a a.
Proof. intros a. apply keeps_content. intros f. exists []. now rewrite app_nil_r. Qed.
Lemma keeps_trans : forall a b c, keeps a b -> keeps b c -> keeps a c.
Proof.
  intros a b c A B. rewrite keeps_content in *. intros f. destruct (A f) as [x X], (B f) as [y Y]. exists (x ++ y). now rewrite Y, X, app_assoc.
Qed.
Lemma log_keeps : forall n lvl msg st, keeps st (log n lvl msg st).
Proof. intros. apply keeps_content. intros f. rewrite log_content. eauto. Qed.
Lemma announce_keeps : forall service name st, keeps st (announce service name st).
Proof. intros service name st. unfold announce. destruct (if service then l_service st else l_client st); apply log_keeps. Qed.
Lemma content_open : forall g t st f, content (open_file g t st) f = if str_eqb g f then (if t then [] else content st f) else content st f.
Proof.
  intros g t st f. unfold content, open_file. cbn [l_files]. cbv zeta. rewrite assoc_set. destruct (str_eqb g f) eqn:E; [|reflexivity].
  apply str_eqb_eq in E as ->. destruct (assoc f (l_files st)); destruct t; reflexivity.
Qed.
Lemma same_files : forall a b, l_files a = l_files b -> forall f, content a f = content b f.
Proof. intros a b E f. unfold content. now rewrite E. Qed.
Lemma files_keep : forall a b, l_files b = l_files a -> keeps a b.
Proof. intros a b E. apply keeps_content. intros f. exists []. rewrite app_nil_r. now apply same_files. Qed.

(** The content of a file after the handlers were added. *)
Lemma add_handlers_content : forall n s st f, content (fst (add_handlers can_open n s st)) f =
  match s_file s with Some g => if can_open g && str_eqb g f && s_clean s then [] else content st f | None => content st f end.
Proof.
  intros n s st f. unfold add_handlers. cbv zeta. destruct (s_file s) as [g|].
  - destruct (can_open g); [|reflexivity]. cbn [fst andb]. destruct (s_stdout s); (etransitivity; [apply (same_files _ (open_file g (s_clean s) st)); reflexivity|]);
      rewrite content_open; destruct (str_eqb g f), (s_clean s); reflexivity.
  - cbn [fst]. destruct (s_stdout s); now apply same_files.
Qed.
Lemma add_handlers_keeps : forall n s st, s_clean s = false -> keeps st (fst (add_handlers can_open n s st)).
Proof.
  intros n s st C. apply keeps_content. intros f. exists []. rewrite app_nil_r, add_handlers_content, C.
  destruct (s_file s); [|reflexivity]. now rewrite andb_false_r.
Qed.

Definition no_clean : Prop := forall service sect v, option_is service sect (lit "CLEAN_LOG_ON_START") v -> ~ truthy v.
Lemma is_true_spec : forall s, is_true U s = true <-> truthy s.
Proof. intros s. unfold is_true, truthy. apply str_eqb_eq. Qed.
Lemma text_ok : forall e o v, text e o = LOk v -> o = Some v.
Proof. intros e [s|] v H; [now injection H as ->|discriminate]. Qed.

Ltac lstep H x :=
  match type of H with
  | lbind ?e _ = LOk _ => destruct e as [x|] eqn:?; [unfold lbind at 1 in H|discriminate H]
  end.

Lemma read_inv : forall service sect s, read_settings U FS FC dir service sect = LOk s ->
  exists v, option_is service sect (lit "CLEAN_LOG_ON_START") v /\ s_clean s = is_true U v.
Proof.
  intros service sect s H. unfold read_settings in H.
  lstep H a. lstep H b. lstep H c. lstep H d. lstep H e. lstep H f. lstep H g. lstep H h. lstep H i. lstep H j. lstep H k.
  injection H as <-. exists j. split; [|reflexivity]. apply option_conf. apply text_ok in Heql8. now rewrite <- Heql8.
Qed.
Lemma read_clean : forall service sect s, no_clean -> read_settings U FS FC dir service sect = LOk s -> s_clean s = false.
Proof.
  intros service sect s N H. apply read_inv in H as (v & O & ->). apply N in O.
  destruct (is_true U v) eqn:E; [|reflexivity]. apply is_true_spec in E. contradiction.
Qed.

Lemma make_keeps : forall name service parent st, no_clean -> keeps st (fst (make_logger U FS FC dir can_open now name service parent st)).
Proof.
  intros name service parent st N. unfold make_logger.
  destruct (read_settings U FS FC dir service (py_upper U name)) as [s|e] eqn:R; [|apply keeps_refl]. cbv zeta.
  apply read_clean in R; [|exact N]. eapply keeps_trans; [apply (announce_keeps service (s_name s))|].
  set (a := announce service (s_name s) st).
  destruct (match parent with Some p => Some p | None => if service then l_service a else l_client a end) as [p|]; [|apply keeps_refl].
  set (n := child p (s_name s)). set (b := set_level n (s_level s) (get_logger n a)).
  assert (KB : keeps a b).
  { apply files_keep. unfold b, get_logger. destruct (assoc n (l_loggers a)); reflexivity. }
  eapply keeps_trans; [exact KB|]. pose proof (add_handlers_keeps n s b R) as KA.
  destruct (add_handlers can_open n s b) as [c [u|e]]; cbn [fst] in *; [|exact KA]. eapply keeps_trans; [exact KA|apply log_keeps].
Qed.

(** Unless CLEAN_LOG_ON_START is true somewhere, no line is ever lost. *)
Theorem C80_kept : forall st st', no_clean -> steps st st' -> keeps st st'.
Proof.
  intros st st' N H. induction H as [|a b c S H IH]; [apply keeps_refl|]. eapply keeps_trans; [|exact IH].
  destruct S; [apply log_keeps|now apply make_keeps].
Qed.

Lemma other_keeps : forall n sect prefix msg st, no_clean -> keeps st (fst (make_other U FS FC dir can_open now n sect prefix msg st)).
Proof.
  intros n sect prefix msg st N. unfold make_other. cbv zeta.
  set (a := adopt n hgaa (get_logger n st)).
  assert (KA : keeps st a) by (apply files_keep; unfold a, get_logger; destruct (assoc n (l_loggers st)); reflexivity).
  eapply keeps_trans; [exact KA|].
  match goal with |- keeps _ (fst (match ?x with LOk _ => _ | LErr _ => _ end)) => destruct x as [lvl|e]; [|apply keeps_refl] end.
  set (b := set_level n (str_to_log_level U lvl) a). assert (KB : keeps a b) by (now apply files_keep). eapply keeps_trans; [exact KB|].
  match goal with |- keeps _ (fst (match ?x with LOk _ => _ | LErr _ => _ end)) => destruct x as [s|e] eqn:R; [|apply keeps_refl] end.
  assert (C : s_clean s = false).
  { lstep R x1. lstep R x2. lstep R x3. lstep R x4. lstep R x5. lstep R x6. lstep R x7. lstep R x8. injection R as <-. cbn [s_clean].
    apply text_ok in Heql0. subst x1. apply option_conf in Heql. apply N in Heql. destruct (is_true U x2) eqn:E; [|reflexivity]. apply is_true_spec in E. contradiction. }
  pose proof (add_handlers_keeps n s b C) as KC.
  destruct (add_handlers can_open n s b) as [c [u|e]]; cbn [fst] in *; [|exact KC]. eapply keeps_trans; [exact KC|apply log_keeps].
Qed.

(** Nor by importing hgaa.log, whether that succeeds or not. *)
Theorem C80_start : forall files, no_clean -> keeps (fresh files) (fst (start_up U FS FC dir can_open now files)).
Proof.
  intros files N. unfold start_up.
  pose proof (make_keeps s_default true (Some hgaa) (fresh files) N) as K1.
  destruct (make_logger U FS FC dir can_open now s_default true (Some hgaa) (fresh files)) as [a [n|e]]; cbn [fst] in *; [|exact K1].
  eapply keeps_trans; [exact K1|]. cbv zeta.
  set (a' := Logs (l_loggers a) (l_adopted a) (Some n) (l_client a) (l_files a) (l_stream a)).
  eapply keeps_trans; [apply (files_keep a a'); reflexivity|].
  pose proof (make_keeps s_default false (Some hgaa) a' N) as K2.
  destruct (make_logger U FS FC dir can_open now s_default false (Some hgaa) a') as [b [m|e]]; cbn [fst] in *; [|exact K2].
  eapply keeps_trans; [exact K2|].
  set (b' := Logs (l_loggers b) (l_adopted b) (l_service b) (Some m) (l_files b) (l_stream b)).
  eapply keeps_trans; [apply (files_keep b b'); reflexivity|].
  pose proof (other_keeps sql_log s_default (lit "SQL_") (lit "SQL") b' N) as K3. fold (make_sql_log U FS FC dir can_open now b') in K3.
  destruct (make_sql_log U FS FC dir can_open now b') as [c [u|e]]; cbn [fst] in *; [|exact K3].
  eapply keeps_trans; [exact K3|]. now apply other_keeps.
Qed.

(** *** Two runs that agree about a file *)

Definition agree (f : str) (a b : logs) : Prop := same_setup a b /\ l_stream a = l_stream b /\ content a f = content b f.
Lemma agree_refl : forall f a, agree f a a.
Proof. repeat split. Qed.
Lemma same_family : forall a b n, same_setup a b -> family a n = family b n /\ effective a n = effective b n /\
  forall l, flat_map (handlers_of a) l = flat_map (handlers_of b) l.
Proof.
  intros a b n (A & B & _). assert (FM : family a n = family b n) by (unfold family; now rewrite A, B).
  repeat split; [exact FM| |].
  - unfold effective. rewrite FM. unfold level_of. now rewrite A.
  - intros l. apply flat_map_ext. intros m. unfold handlers_of. now rewrite A.
Qed.
Lemma setup_sym : forall a b, same_setup a b -> same_setup b a.
Proof. intros a b (A & B & C & D). repeat split; now symmetry. Qed.
Lemma setup_trans : forall a b c, same_setup a b -> same_setup b c -> same_setup a c.
Proof. intros a b c (A & B & C & D) (A' & B' & C' & D'). repeat split; congruence. Qed.
Lemma log_agree : forall f n lvl msg a b, agree f a b -> agree f (log n lvl msg a) (log n lvl msg b).
Proof.
  intros f n lvl msg a b (S & ST & C). destruct (same_family a b n S) as (FM & EF & HS). repeat split.
  1-4: destruct (log_setup n lvl msg a) as (? & ? & ? & ?), (log_setup n lvl msg b) as (? & ? & ? & ?), S as (? & ? & ? & ?); congruence.
  - rewrite !log_stream, FM, EF, HS, ST. reflexivity.
  - rewrite !log_content, FM, EF, HS, C. reflexivity.
Qed.
Lemma announce_agree : forall f service name a b, agree f a b -> agree f (announce service name a) (announce service name b).
Proof.
  intros f service name a b A. unfold announce. destruct A as (S & ST & C). assert (S' := S). destruct S as (A1 & A2 & A3 & A4).
  rewrite A3, A4. destruct (if service then l_service b else l_client b); apply log_agree; repeat split; assumption.
Qed.
Lemma agree_map : forall f (g : logs -> logs) a b, agree f a b ->
  (forall x y, same_setup x y -> same_setup (g x) (g y)) -> (forall x, l_stream (g x) = l_stream x) -> (forall x, l_files (g x) = l_files x) ->
  agree f (g a) (g b).
Proof.
  intros f g a b (S & ST & C) G1 G2 G3. split; [auto|]. split; [now rewrite !G2|].
  rewrite (same_files (g a) a (G3 a)), (same_files (g b) b (G3 b)). exact C.
Qed.
Lemma with_logger_setup : forall n g x y, same_setup x y -> same_setup (with_logger n g x) (with_logger n g y).
Proof. intros n g x y (A & B & C & D). repeat split; cbn [with_logger l_loggers l_adopted l_service l_client]; congruence. Qed.
Lemma add_handler_agree : forall f n h a b, agree f a b -> agree f (add_handler n h a) (add_handler n h b).
Proof.
  intros f n h a b (S & ST & C). assert (L : level_of a n = level_of b n /\ handlers_of a n = handlers_of b n).
  { destruct S as (A & _). unfold level_of, handlers_of. now rewrite A. }
  destruct L as [L H]. unfold add_handler. rewrite L, H. split; [now apply with_logger_setup|]. split; [exact ST|exact C].
Qed.
Lemma open_agree : forall f g t a b, agree f a b \/ (same_setup a b /\ l_stream a = l_stream b /\ g = f /\ t = true) ->
  agree f (open_file g t a) (open_file g t b).
Proof.
  intros f g t a b [(S & ST & C)|(S & ST & -> & ->)]; (split; [exact S|]; split; [exact ST|]); rewrite !content_open.
  - now rewrite C.
  - now rewrite str_eqb_refl.
Qed.
Lemma add_handlers_agree : forall f n s a b,
  agree f a b \/ (same_setup a b /\ l_stream a = l_stream b /\ s_file s = Some f /\ s_clean s = true /\ can_open f = true) ->
  agree f (fst (add_handlers can_open n s a)) (fst (add_handlers can_open n s b)) /\
  snd (add_handlers can_open n s a) = snd (add_handlers can_open n s b).
Proof.
  intros f n s a b H. unfold add_handlers. cbv zeta. destruct (s_file s) as [g|].
  - destruct (can_open g) eqn:CO.
    + split; [|reflexivity]. cbn [fst].
      assert (A : agree f (open_file g (s_clean s) a) (open_file g (s_clean s) b)).
      { apply open_agree. destruct H as [H|(S & ST & E & C & _)]; [now left|right]. injection E as <-. auto. }
      destruct (s_stdout s); repeat apply add_handler_agree; exact A.
    + destruct H as [H|(_ & _ & E & _ & X)]; [now split|]. injection E as <-. congruence.
  - destruct H as [H|(_ & _ & E & _)]; [|discriminate]. split; [|reflexivity]. cbn [fst]. destruct (s_stdout s); [now apply add_handler_agree|exact H].
Qed.
Lemma get_logger_setup : forall n x y, same_setup x y -> same_setup (get_logger n x) (get_logger n y).
Proof. intros n x y (A & B & C & D). unfold get_logger. rewrite A. destruct (assoc n (l_loggers y)); repeat split; cbn; congruence. Qed.
Lemma prepared_setup : forall n lvl x y, same_setup x y -> same_setup (set_level n lvl (get_logger n x)) (set_level n lvl (get_logger n y)).
Proof.
  intros n lvl x y S. assert (G := get_logger_setup n x y S). unfold set_level.
  replace (handlers_of (get_logger n x) n) with (handlers_of (get_logger n y) n) by (unfold handlers_of; destruct G as (G & _); now rewrite G).
  now apply with_logger_setup.
Qed.
Lemma get_logger_files : forall n x, l_files (get_logger n x) = l_files x /\ l_stream (get_logger n x) = l_stream x.
Proof. intros n x. unfold get_logger. destruct (assoc n (l_loggers x)); now split. Qed.
Lemma prepared_agree : forall f n lvl a b, agree f a b -> agree f (set_level n lvl (get_logger n a)) (set_level n lvl (get_logger n b)).
Proof.
  intros f n lvl a b A. apply (agree_map f (fun x => set_level n lvl (get_logger n x))); [exact A| | |].
  - intros x y. apply prepared_setup.
  - intros x. apply (get_logger_files n x).
  - intros x. apply (get_logger_files n x).
Qed.

Lemma make_agree : forall f name service p a b, agree f a b ->
  agree f (fst (make_logger U FS FC dir can_open now name service (Some p) a)) (fst (make_logger U FS FC dir can_open now name service (Some p) b)) /\
  snd (make_logger U FS FC dir can_open now name service (Some p) a) = snd (make_logger U FS FC dir can_open now name service (Some p) b).
Proof.
  intros f name service p a b A. unfold make_logger.
  destruct (read_settings U FS FC dir service (py_upper U name)) as [s|e]; [|now split]. cbv zeta.
  apply (announce_agree f service (s_name s)) in A. apply (prepared_agree f (child p (s_name s)) (s_level s)) in A.
  destruct (add_handlers_agree f (child p (s_name s)) s _ _ (or_introl A)) as [B C].
  destruct (add_handlers can_open (child p (s_name s)) s (set_level _ _ (get_logger _ (announce service (s_name s) a)))) as [a' r].
  destruct (add_handlers can_open (child p (s_name s)) s (set_level _ _ (get_logger _ (announce service (s_name s) b)))) as [b' r'].
  cbn [fst snd] in B, C. subst r'. destruct r; cbn [fst snd]; (split; [|reflexivity]); [now apply log_agree|exact B].
Qed.
Lemma other_agree : forall f n sect prefix msg a b, agree f a b ->
  agree f (fst (make_other U FS FC dir can_open now n sect prefix msg a)) (fst (make_other U FS FC dir can_open now n sect prefix msg b)) /\
  snd (make_other U FS FC dir can_open now n sect prefix msg a) = snd (make_other U FS FC dir can_open now n sect prefix msg b).
Proof.
  intros f n sect prefix msg a b A. unfold make_other. cbv zeta.
  assert (A1 : agree f (adopt n hgaa (get_logger n a)) (adopt n hgaa (get_logger n b))).
  { apply (agree_map f (fun x => adopt n hgaa (get_logger n x))); [exact A| | |].
    - intros x y S. apply (get_logger_setup n) in S as (S1 & S2 & S3 & S4). repeat split; cbn [adopt l_loggers l_adopted l_service l_client]; congruence.
    - intros x. apply (get_logger_files n x).
    - intros x. apply (get_logger_files n x). }
  match goal with |- agree _ (fst (match ?x with LOk _ => _ | LErr _ => _ end)) _ /\ _ => destruct x as [lvl|e]; [|now split] end.
  assert (A2 : agree f (set_level n (str_to_log_level U lvl) (adopt n hgaa (get_logger n a))) (set_level n (str_to_log_level U lvl) (adopt n hgaa (get_logger n b)))).
  { apply (agree_map f (set_level n (str_to_log_level U lvl))); [exact A1| | |]; try reflexivity.
    intros x y S. unfold set_level. replace (handlers_of x n) with (handlers_of y n) by (unfold handlers_of; destruct S as (S & _); now rewrite S).
    now apply with_logger_setup. }
  match goal with |- agree _ (fst (match ?x with LOk _ => _ | LErr _ => _ end)) _ /\ _ => destruct x as [s|e]; [|now split] end.
  destruct (add_handlers_agree f n s _ _ (or_introl A2)) as [B C].
  destruct (add_handlers can_open n s (set_level n _ (adopt n hgaa (get_logger n a)))) as [a' r].
  destruct (add_handlers can_open n s (set_level n _ (adopt n hgaa (get_logger n b)))) as [b' r'].
  cbn [fst snd] in B, C. subst r'. destruct r; cbn [fst snd]; (split; [|reflexivity]); [now apply log_agree|exact B].
Qed.

(** With CLEAN_LOG_ON_START true for the services, importing hgaa.log (as the clients do
    too) leaves in the log of the services what does not depend on what was in it. *)
Theorem C80_cleaned : forall o f files files' l, options_are true s_default o -> truthy (o_clean o) ->
  log_target U dir (Some (o_file o)) = Some f -> can_open f = true ->
  lines_in (fst (start_up U FS FC dir can_open now files)) f l -> lines_in (fst (start_up U FS FC dir can_open now files')) f l.
Proof.
  intros o f files files' l O T LT CO L. apply lines_content in L as ->. apply lines_content.
  enough (agree f (fst (start_up U FS FC dir can_open now files)) (fst (start_up U FS FC dir can_open now files'))) as (_ & _ & C) by exact C.
  unfold start_up.
  assert (A : agree f (fst (make_logger U FS FC dir can_open now s_default true (Some hgaa) (fresh files)))
                      (fst (make_logger U FS FC dir can_open now s_default true (Some hgaa) (fresh files'))) /\
              snd (make_logger U FS FC dir can_open now s_default true (Some hgaa) (fresh files)) =
              snd (make_logger U FS FC dir can_open now s_default true (Some hgaa) (fresh files'))).
  { unfold make_logger. replace (py_upper U s_default) with s_default by reflexivity. rewrite (read_eq _ _ _ O). cbv zeta.
    replace (announce true (s_name (settings_of o)) (fresh files)) with (fresh files) by reflexivity.
    replace (announce true (s_name (settings_of o)) (fresh files')) with (fresh files') by reflexivity.
    set (n := child hgaa (s_name (settings_of o))). set (lv := s_level (settings_of o)).
    assert (S : same_setup (set_level n lv (get_logger n (fresh files))) (set_level n lv (get_logger n (fresh files'))))
      by (apply prepared_setup; repeat split).
    assert (ST : l_stream (set_level n lv (get_logger n (fresh files))) = l_stream (set_level n lv (get_logger n (fresh files')))).
    { change (l_stream (get_logger n (fresh files)) = l_stream (get_logger n (fresh files'))). now rewrite !(proj2 (get_logger_files n _)). }
    destruct (add_handlers_agree f n (settings_of o) _ _ (or_intror (conj S (conj ST (conj LT (conj (proj2 (is_true_spec _) T) CO)))))) as [B C].
    destruct (add_handlers can_open n (settings_of o) (set_level n lv (get_logger n (fresh files)))) as [a' r].
    destruct (add_handlers can_open n (settings_of o) (set_level n lv (get_logger n (fresh files')))) as [b' r'].
    cbn [fst snd] in B, C. subst r'. destruct r; cbn [fst snd]; (split; [|reflexivity]); [now apply log_agree|exact B]. }
  destruct A as [A R].
  destruct (make_logger U FS FC dir can_open now s_default true (Some hgaa) (fresh files)) as [a r].
  destruct (make_logger U FS FC dir can_open now s_default true (Some hgaa) (fresh files')) as [b r'].
  cbn [fst snd] in A, R. subst r'. destruct r as [n|e]; [|exact A]. cbv zeta.
  assert (A1 : agree f (Logs (l_loggers a) (l_adopted a) (Some n) (l_client a) (l_files a) (l_stream a))
                       (Logs (l_loggers b) (l_adopted b) (Some n) (l_client b) (l_files b) (l_stream b))).
  { destruct A as ((A1 & A2 & A3 & A4) & A5 & A6). repeat split; assumption. }
  clear A. destruct (make_agree f s_default false hgaa _ _ A1) as [A R].
  destruct (make_logger U FS FC dir can_open now s_default false (Some hgaa) (Logs (l_loggers a) (l_adopted a) (Some n) (l_client a) (l_files a) (l_stream a))) as [a2 r].
  destruct (make_logger U FS FC dir can_open now s_default false (Some hgaa) (Logs (l_loggers b) (l_adopted b) (Some n) (l_client b) (l_files b) (l_stream b))) as [b2 r'].
  cbn [fst snd] in A, R. subst r'. destruct r as [m|e]; [|exact A].
  assert (A2 : agree f (Logs (l_loggers a2) (l_adopted a2) (l_service a2) (Some m) (l_files a2) (l_stream a2))
                       (Logs (l_loggers b2) (l_adopted b2) (l_service b2) (Some m) (l_files b2) (l_stream b2))).
  { destruct A as ((A2 & A3 & A4 & A5) & A6 & A7). repeat split; assumption. }
  clear A A1. destruct (other_agree f sql_log s_default (lit "SQL_") (lit "SQL") _ _ A2) as [A R].
  unfold make_sql_log.
  destruct (make_other U FS FC dir can_open now sql_log s_default (lit "SQL_") (lit "SQL") (Logs (l_loggers a2) _ _ _ _ _)) as [a3 r].
  destruct (make_other U FS FC dir can_open now sql_log s_default (lit "SQL_") (lit "SQL") (Logs (l_loggers b2) _ _ _ _ _)) as [b3 r'].
  cbn [fst snd] in A, R. subst r'. destruct r as [u|e]; [|exact A]. now apply other_agree.
Qed.

(** ** C81: importing hgaa.log *)

Definition opens (target : option str) : Prop := forall f, target = Some f -> can_open f = true.
(** The options of the log of SQLAlchemy or of Ladon; the prefix is SQL_ or nothing. *)
Definition other_options_are (sect prefix : str) (o : opts) : Prop :=
  option_is true sect (prefix ++ lit "LOG_LEVEL") (o_level o) /\ option_is true s_default (lit "CLEAN_LOG_ON_START") (o_clean o) /\
  option_is true sect (prefix ++ lit "LOG_FILE") (o_file o) /\ option_is true sect (prefix ++ lit "LOG_FORMAT") (o_format o) /\
  option_is true sect (prefix ++ lit "LOG_DATE_FORMAT") (o_dates o) /\ option_is true sect (prefix ++ lit "LOG_STDOUT") (o_out o).

Lemma add_handlers_res : forall n s st, snd (add_handlers can_open n s st) =
  match s_file s with Some f => if can_open f then LOk tt else LErr LOpen | None => LOk tt end.
Proof. intros n s st. unfold add_handlers. cbv zeta. destruct (s_file s) as [f|]; [destruct (can_open f)|]; reflexivity. Qed.
Lemma make_res : forall name service p st o, options_are service (py_upper U name) o ->
  snd (make_logger U FS FC dir can_open now name service (Some p) st) =
  match log_target U dir (Some (o_file o)) with
  | Some f => if can_open f then LOk (child p (o_name o)) else LErr LOpen
  | None => LOk (child p (o_name o))
  end.
Proof.
  intros name service p st o O. unfold make_logger. rewrite (read_eq _ _ _ O). cbv zeta.
  match goal with |- snd (match add_handlers _ ?n ?s ?x with _ => _ end) = _ => pose proof (add_handlers_res n s x) as R; destruct (add_handlers can_open n s x) as [c r] end.
  cbn [snd] in R. subst r. cbn [settings_of s_file s_name].
  destruct (log_target U dir (Some (o_file o))) as [f|]; [destruct (can_open f)|]; reflexivity.
Qed.
Lemma other_res : forall n sect prefix msg st o, other_options_are sect prefix o ->
  snd (make_other U FS FC dir can_open now n sect prefix msg st) = if can_open (dir ++ o_file o) then LOk tt else LErr LOpen.
Proof.
  intros n sect prefix msg st o (A & B & C & D & E & F). rewrite option_conf in *. unfold make_other. cbv zeta.
  rewrite A. unfold lbind at 1. unfold text at 1. cbv iota.
  rewrite B. unfold lbind at 1. unfold text at 1, lbind at 1. rewrite C. unfold lbind at 1. unfold text at 1, lbind at 1. rewrite D. unfold lbind at 1.
  rewrite E. unfold lbind at 1. rewrite F. unfold lbind at 1. unfold text at 1, lbind at 1. cbv iota.
  match goal with |- snd (match add_handlers _ ?n ?s ?x with _ => _ end) = _ => pose proof (add_handlers_res n s x) as R; destruct (add_handlers can_open n s x) as [c r] end.
  cbn [snd] in R. subst r. cbn [s_file]. destruct (can_open (dir ++ o_file o)); reflexivity.
Qed.

(** It succeeds exactly if the four files can be opened; otherwise it raises the error of
    open(). *)
Theorem C81_start : forall files oS oC oQ oL,
  options_are true s_default oS -> options_are false s_default oC ->
  other_options_are s_default (lit "SQL_") oQ -> other_options_are (lit "LADON") [] oL ->
  let ok := opens (log_target U dir (Some (o_file oS))) /\ opens (log_target U dir (Some (o_file oC))) /\
            opens (Some (dir ++ o_file oQ)) /\ opens (Some (dir ++ o_file oL)) in
  (ok -> snd (start_up U FS FC dir can_open now files) = LOk tt) /\
  (~ ok -> snd (start_up U FS FC dir can_open now files) = LErr LOpen).
Proof.
  intros files oS oC oQ oL S C Q L ok.
  assert (OT : forall t, opens t <-> match t with Some f => can_open f = true | None => True end).
  { intros [f|]; unfold opens; split; intros H; auto; try discriminate. intros g [= <-]. exact H. }
  unfold start_up.
  pose proof (make_res s_default true hgaa (fresh files) oS S) as R1.
  destruct (make_logger U FS FC dir can_open now s_default true (Some hgaa) (fresh files)) as [a r1]. cbn [snd] in R1. subst r1.
  unfold ok. rewrite !OT. clear ok.
  assert (rest : forall a n,
    let out := snd (let st := Logs (l_loggers a) (l_adopted a) (Some n) (l_client a) (l_files a) (l_stream a) in
      match make_logger U FS FC dir can_open now s_default false (Some hgaa) st with
      | (st, LErr e) => (st, LErr e)
      | (st, LOk n) =>
          let st := Logs (l_loggers st) (l_adopted st) (l_service st) (Some n) (l_files st) (l_stream st) in
          match make_sql_log U FS FC dir can_open now st with
          | (st, LErr e) => (st, LErr e)
          | (st, LOk _) => make_ladon_log U FS FC dir can_open now st
          end
      end) in
    let ok := match log_target U dir (Some (o_file oC)) with Some f => can_open f = true | None => True end /\
              can_open (dir ++ o_file oQ) = true /\ can_open (dir ++ o_file oL) = true in
    (ok -> out = LOk tt) /\ (~ ok -> out = LErr LOpen)).
  { clear a. intros a n. cbv zeta. set (a1 := Logs _ _ (Some n) _ _ _).
    pose proof (make_res s_default false hgaa a1 oC C) as R2.
    destruct (make_logger U FS FC dir can_open now s_default false (Some hgaa) a1) as [b r2]. cbn [snd] in R2. subst r2.
    assert (rest : forall b m,
      let out := snd (let st := Logs (l_loggers b) (l_adopted b) (l_service b) (Some m) (l_files b) (l_stream b) in
          match make_sql_log U FS FC dir can_open now st with
          | (st, LErr e) => (st, LErr e)
          | (st, LOk _) => make_ladon_log U FS FC dir can_open now st
          end) in
      let ok := can_open (dir ++ o_file oQ) = true /\ can_open (dir ++ o_file oL) = true in
      (ok -> out = LOk tt) /\ (~ ok -> out = LErr LOpen)).
    { clear b. intros b m. cbv zeta. set (b1 := Logs _ _ _ (Some m) _ _).
      pose proof (other_res sql_log s_default (lit "SQL_") (lit "SQL") b1 oQ Q) as R3. fold (make_sql_log U FS FC dir can_open now b1) in R3.
      destruct (make_sql_log U FS FC dir can_open now b1) as [c r3]. cbn [snd] in R3. subst r3.
      pose proof (other_res ladon_log (lit "LADON") [] (lit "LADON") c oL L) as R4. fold (make_ladon_log U FS FC dir can_open now c) in R4.
      destruct (can_open (dir ++ o_file oQ)); cbn [snd].
      - rewrite R4. destruct (can_open (dir ++ o_file oL)); split; intros H; try reflexivity.
        + destruct H; auto.
        + destruct H as [_ H]. discriminate.
      - split; intros H; [destruct H; discriminate|reflexivity]. }
    destruct (log_target U dir (Some (o_file oC))) as [f|].
    - specialize (rest b (child hgaa (o_name oC))). cbv zeta in rest. destruct (can_open f).
      + destruct rest as [X Y]. split; intros H; [apply X, H|apply Y; intros p; apply H; auto].
      + split; intros H; [destruct H; discriminate|reflexivity].
    - specialize (rest b (child hgaa (o_name oC))). cbv zeta in rest. destruct rest as [X Y].
      split; intros H; [apply X, H|apply Y; intros p; apply H; auto]. }
  destruct (log_target U dir (Some (o_file oS))) as [f|].
  - specialize (rest a (child hgaa (o_name oS))). cbv zeta in rest. destruct (can_open f).
    + destruct rest as [X Y]. split; intros H; [apply X, H|apply Y; intros p; apply H; auto].
    + split; intros H; [destruct H; discriminate|reflexivity].
  - specialize (rest a (child hgaa (o_name oS))). cbv zeta in rest. destruct rest as [X Y].
    split; intros H; [apply X, H|apply Y; intros p; apply H; auto].
Qed.

(** No option of the logs is missing: what the files do not set is built in.  The texts the
    files do set are the only cause of another error. *)
Definition log_options (service : bool) : list str :=
  map lit ["LOG_FILE"; "LOG_LEVEL"; "LOG_FORMAT"; "LOG_NAME"; "LOG_DATE_FORMAT"; "LOG_STDOUT"; "CLEAN_LOG_ON_START"]%string ++
  (if service then map lit ["SQL_LOG_LEVEL"; "SQL_LOG_FILE"; "SQL_LOG_FORMAT"; "SQL_LOG_DATE_FORMAT"; "SQL_LOG_STDOUT"]%string else []).
Theorem C81_no_option_missing : forall service sect name, file_ok FS -> file_ok FC -> In name (log_options service) ->
  (exists v, option_is service sect name v) \/
  (exists o t, section U (if service then FS else FC) sect o /\
     chain o (if service then FS else FC) (py_lower U (py_upper U name)) = Some t /\
     forall v, ~ expands U (chain o (if service then FS else FC)) 10 t v).
Proof.
  intros service sect name OS OC I. unfold option_is.
  assert (AS : is_ascii name = true).
  { destruct service; cbn [log_options map app In] in I; repeat (destruct I as [<-|I]; [reflexivity|]); destruct I. }
  pose proof (ascii_stable U name AS) as ST.
  assert (UP : py_upper U name = map upper_c name) by (unfold py_upper; now rewrite AS).
  destruct service.
  - destruct (get_conf U FS service_defaults name sect) as [[v|]|e] eqn:E; [left; now exists v| |].
    + exfalso. destruct (get_conf_eq U FS service_defaults name sect OS ST) as (o & _ & G). rewrite G in E.
      destruct (chain o FS _) as [t|]; [destruct (interpolate _ _ _ _); discriminate|]. rewrite UP in E.
      cbn [log_options map app In] in I; repeat (destruct I as [<-|I]; [vm_compute in E; discriminate E|]); destruct I.
    + right. destruct (C55_raises U FS service_defaults name sect OS ST) as [[H _] _]. apply H. eauto.
  - destruct (get_conf U FC client_defaults name sect) as [[v|]|e] eqn:E; [left; now exists v| |].
    + exfalso. destruct (get_conf_eq U FC client_defaults name sect OC ST) as (o & _ & G). rewrite G in E.
      destruct (chain o FC _) as [t|]; [destruct (interpolate _ _ _ _); discriminate|]. rewrite UP in E.
      cbn [log_options map app In] in I; repeat (destruct I as [<-|I]; [vm_compute in E; discriminate E|]); destruct I.
    + right. destruct (C55_raises U FC client_defaults name sect OC ST) as [[H _] _]. apply H. eauto.
Qed.

(** ** C79: how often a line is written *)

Lemma other_changed : forall n sect prefix msg st m, str_eqb n m = false ->
  let st' := fst (make_other U FS FC dir can_open now n sect prefix msg st) in
  assoc m (l_loggers st') = assoc m (l_loggers st) /\ assoc m (l_adopted st') = assoc m (l_adopted st) /\
  l_service st' = l_service st /\ l_client st' = l_client st /\
  (forall k q, assoc k (l_adopted st') = Some q -> q = hgaa \/ assoc k (l_adopted st) = Some q).
Proof.
  intros n sect prefix msg st m NM.
  assert (base : forall st', (exists g, changed (adopt n hgaa st) st' n g) ->
    assoc m (l_loggers st') = assoc m (l_loggers st) /\ assoc m (l_adopted st') = assoc m (l_adopted st) /\
    l_service st' = l_service st /\ l_client st' = l_client st /\
    (forall k q, assoc k (l_adopted st') = Some q -> q = hgaa \/ assoc k (l_adopted st) = Some q)).
  { intros st' (g & C & CA & CS & CC). rewrite CA, C, NM. cbn [adopt l_adopted l_loggers]. rewrite assoc_set, NM. repeat split; auto.
    intros k q. rewrite assoc_set. destruct (str_eqb n k); [intros [= <-]; auto|auto]. }
  assert (B1 : exists g, changed (adopt n hgaa st) (adopt n hgaa (get_logger n st)) n g).
  { eexists. apply (changed_setup _ (get_logger n (adopt n hgaa st))); [apply get_logger_changed|].
    unfold get_logger. cbn [adopt l_loggers]. destruct (assoc n (l_loggers st)); repeat split. }
  cbv zeta. apply base. clear base NM m. unfold make_other. cbv zeta.
  destruct B1 as [g1 B1]. set (a := adopt n hgaa (get_logger n st)) in *.
  match goal with |- exists g, changed _ (fst (match ?x with LOk _ => _ | LErr _ => _ end)) _ g => destruct x as [lvl|e]; [|now exists g1] end.
  pose proof (changed_twice _ _ _ _ _ _ B1 (with_logger_changed n (Logger (str_to_log_level U lvl) (handlers_of a n)) a)) as B2.
  fold (set_level n (str_to_log_level U lvl) a) in B2. set (b := set_level n (str_to_log_level U lvl) a) in *.
  match goal with |- exists g, changed _ (fst (match ?x with LOk _ => _ | LErr _ => _ end)) _ g => destruct x as [s|e]; [|eexists; exact B2] end.
  destruct (add_handlers can_open n s b) as [c [[]|e]] eqn:AH; cbn [fst].
  - apply add_handlers_changed in AH as [AH|[_ AH]].
    + eexists. eapply changed_setup; [|apply log_setup]. eapply changed_twice; [exact B2|exact AH].
    + eexists. eapply changed_setup; [|apply log_setup]. eapply changed_setup; [exact B2|exact AH].
  - unfold add_handlers in AH. cbv zeta in AH. destruct (s_file s) as [f|]; [|discriminate]. destruct (can_open f); [discriminate|]. injection AH as <- _.
    eexists. exact B2.
Qed.

(** The logs of the services and of the clients after a start, if their names have no dots
    and differ. *)
Lemma started : forall files st oS oC, options_are true s_default oS -> options_are false s_default oC ->
  ~ In dot (o_name oS) -> ~ In dot (o_name oC) -> o_name oS <> o_name oC ->
  start_up U FS FC dir can_open now files = (st, LOk tt) ->
  let s := child hgaa (o_name oS) in let c := child hgaa (o_name oC) in
  l_service st = Some s /\ l_client st = Some c /\ adopted_known st /\
  assoc hgaa (l_loggers st) = Some (Logger 0 []) /\
  assoc s (l_loggers st) = Some (Logger (str_to_log_level U (o_level oS)) (own_handlers (settings_of oS))) /\
  assoc c (l_loggers st) = Some (Logger (str_to_log_level U (o_level oC)) (own_handlers (settings_of oC))) /\
  assoc hgaa (l_adopted st) = None.
Proof.
  intros files st oS oC OS OC NS NC NE H s c. unfold start_up in H.
  assert (SC : str_eqb s c = false).
  { destruct (str_eqb s c) eqn:E; [|reflexivity]. apply str_eqb_eq in E. unfold s, c, child in E. apply app_inv_head in E. injection E as E. congruence. }
  assert (CS : str_eqb c s = false).
  { destruct (str_eqb c s) eqn:E; [|reflexivity]. apply str_eqb_eq in E. rewrite E, str_eqb_refl in SC. discriminate. }
  assert (HS : forall nm, str_eqb (child hgaa nm) hgaa = false) by reflexivity.
  assert (LS : forall nm, str_eqb sql_log (child hgaa nm) = false /\ str_eqb ladon_log (child hgaa nm) = false) by (intros; split; reflexivity).
  destruct (make_logger U FS FC dir can_open now s_default true (Some hgaa) (fresh files)) as [a [n|e]] eqn:M1; [|discriminate].
  apply (made s_default true hgaa _ _ _ oS OS) in M1 as [-> (A & AA & AS & AC)]. fold s in A, H. cbv zeta in H.
  set (a1 := Logs (l_loggers a) (l_adopted a) (Some s) (l_client a) (l_files a) (l_stream a)) in *.
  destruct (make_logger U FS FC dir can_open now s_default false (Some hgaa) a1) as [b [n|e]] eqn:M2; [|discriminate].
  apply (made s_default false hgaa _ _ _ oC OC) in M2 as [-> (B & BA & BS & BC)]. fold c in B, H.
  set (b1 := Logs (l_loggers b) (l_adopted b) (l_service b) (Some c) (l_files b) (l_stream b)) in *.
  change (l_loggers a1) with (l_loggers a) in B. cbn [a1 l_adopted l_service l_client] in BA, BS.
  assert (K1 : handlers_of (fresh files) s = []) by (unfold handlers_of; cbn [fresh l_loggers assoc]; reflexivity).
  assert (K2 : handlers_of a1 c = []).
  { unfold handlers_of. change (l_loggers a1) with (l_loggers a). rewrite A, SC. reflexivity. }
  rewrite K1 in A. rewrite K2 in B. cbn [app] in A, B.
  unfold make_sql_log, make_ladon_log in H.
  destruct (make_other U FS FC dir can_open now sql_log s_default (lit "SQL_") (lit "SQL") b1) as [d [u|e]] eqn:M3; [|discriminate].
  assert (D : forall m, str_eqb sql_log m = false -> str_eqb ladon_log m = false ->
    assoc m (l_loggers st) = assoc m (l_loggers b) /\ assoc m (l_adopted st) = None /\ l_service st = Some s /\ l_client st = Some c /\
    forall k q, assoc k (l_adopted st) = Some q -> q = hgaa).
  { intros m N1 N2.
    pose proof (other_changed sql_log s_default (lit "SQL_") (lit "SQL") b1 m N1) as X. rewrite M3 in X. cbn [fst] in X. cbv zeta in X.
    pose proof (other_changed ladon_log (lit "LADON") [] (lit "LADON") d m N2) as Y. rewrite H in Y. cbn [fst] in Y. cbv zeta in Y.
    destruct X as (X1 & X2 & X3 & X4 & X5), Y as (Y1 & Y2 & Y3 & Y4 & Y5).
    assert (E0 : forall k, assoc k (l_adopted b1) = None) by (intros k; change (l_adopted b1) with (l_adopted b); rewrite BA, AA; reflexivity).
    rewrite Y1, X1, Y2, X2, Y3, X3, Y4, X4, E0. cbn [b1 l_service l_client l_loggers]. rewrite BS. repeat split.
    intros k q Q. apply Y5 in Q as [->|Q]; [reflexivity|]. apply X5 in Q as [->|Q]; [reflexivity|]. rewrite E0 in Q. discriminate. }
  assert (LH : str_eqb sql_log hgaa = false /\ str_eqb ladon_log hgaa = false) by (split; reflexivity).
  destruct (D hgaa (proj1 LH) (proj2 LH)) as (D1 & D2 & D3 & D4 & D5).
  destruct (D s (proj1 (LS _)) (proj2 (LS _))) as (E1 & _). destruct (D c (proj1 (LS _)) (proj2 (LS _))) as (F1 & _).
  assert (HG : assoc hgaa (l_loggers st) = Some (Logger 0 [])).
  { rewrite D1, B, A. unfold s, c. rewrite !HS. reflexivity. }
  repeat split; auto.
  - intros m q Q. apply assoc_binds in Q. apply D5 in Q as ->. exists (Logger 0 []). now apply assoc_binds.
  - now rewrite E1, B, CS, A, str_eqb_refl.
  - now rewrite F1, B, str_eqb_refl.
Qed.

Lemma started_path : forall st nm g, ~ In dot nm -> assoc hgaa (l_loggers st) = Some (Logger 0 []) -> assoc (child hgaa nm) (l_loggers st) = Some g ->
  assoc hgaa (l_adopted st) = None ->
  path st (child hgaa nm) [child hgaa nm; hgaa] /\
  threshold st [child hgaa nm; hgaa] (if lg_level g =? 0 then 30 else lg_level g) /\
  met st [child hgaa nm; hgaa] (lg_handlers g).
Proof.
  intros st nm g N H1 H2 H3. repeat split.
  - apply family_path. unfold family. cbv zeta. rewrite (prefixes_child hgaa nm N).
    change (rev (prefixes hgaa ++ [hgaa])) with [hgaa]. cbn [filter]. rewrite H2, H1. cbn [last]. rewrite H3. reflexivity.
  - apply threshold_spec. unfold level_of. cbn [find]. rewrite H2, H1. cbn [lg_level Z.eqb negb].
    destruct (lg_level g =? 0); cbn [negb]; [reflexivity|]. now rewrite H2.
  - apply met_spec. unfold handlers_of. cbn [flat_map]. rewrite H2, H1. cbn [lg_handlers]. now rewrite !app_nil_r.
Qed.

Definition copies (target : option str) (f : str) : nat := match target with Some g => if str_eqb g f then 1 else 0 | None => 0 end.

(** After a start, a record of a service component (AAUTH, PAUTH, TOOLS...) is written to a
    file once if the component logs to that file and once more if the services do. *)
Theorem C79_copies : forall files st name st' n o oS oC lvl msg f before after,
  options_are true s_default oS -> options_are false s_default oC ->
  ~ In dot (o_name oS) -> ~ In dot (o_name oC) -> o_name oS <> o_name oC ->
  start_up U FS FC dir can_open now files = (st, LOk tt) ->
  options_are true (py_upper U name) o -> ~ In dot (o_name o) -> ~ known st (child (child hgaa (o_name oS)) (o_name o)) ->
  make_logger U FS FC dir can_open now name true (l_service st) st = (st', LOk n) ->
  10 <= lvl -> str_to_log_level U (o_level o) <= lvl -> str_to_log_level U (o_level oS) <= lvl ->
  (str_to_log_level U (o_level o) = 0 -> str_to_log_level U (o_level oS) = 0 -> 30 <= lvl) ->
  lines_in st' f before -> lines_in (log n lvl msg st') f after ->
  exists hs, after = before ++ map (fun h => (h, Rec n lvl msg)) hs /\
    List.length hs = (copies (log_target U dir (Some (o_file o))) f + copies (log_target U dir (Some (o_file oS))) f)%nat.
Proof.
  intros files st name st' n o oS oC lvl msg f before after OS OC NS NC NE H O NO NK M L0 L1 L2 L3 B A.
  destruct (started files st oS oC OS OC NS NC NE H) as (SV & _ & AK & HG & HS & _ & AD). rewrite SV in M.
  destruct (started_path st (o_name oS) _ NS HG HS AD) as (P & T & MT). cbn [lg_level lg_handlers] in T, MT.
  set (s := child hgaa (o_name oS)) in *.
  assert (KS : known st s) by (eexists; apply assoc_binds; exact HS).
  pose proof (C78_component name true s st st' n o _ _ _ lvl msg f _ before O NO KS NK AK M P T MT (proj2 (to_file_spec f _ _) eq_refl) B) as X.
  cbv zeta in X. apply lines_content in X, A. rewrite <- A in X. rewrite <- X. clear A X.
  match goal with |- context [if ?c then map _ _ else []] => assert (E : c = true) end.
  { apply Z.leb_le. destruct (Z.eqb_spec (str_to_log_level U (o_level o)) 0) as [Z1|Z1]; [|exact L1].
    destruct (Z.eqb_spec (str_to_log_level U (o_level oS)) 0) as [Z2|Z2]; [auto|exact L2]. }
  rewrite E. eexists. split; [reflexivity|]. rewrite app_length. f_equal.
  - unfold copies. destruct (log_target U dir (Some (o_file o))) as [g|]; [|reflexivity]. destruct (str_eqb g f); reflexivity.
  - unfold own_handlers, copies. cbn [settings_of s_file s_stdout s_format s_dates]. destruct (log_target U dir (Some (o_file oS))) as [g|].
    + cbn [app filter on_file h_file]. destruct (str_eqb g f); destruct (is_true U (o_out oS)); reflexivity.
    + destruct (is_true U (o_out oS)); reflexivity.
Qed.

(** A start keeps the lines of the log of the clients if that is not cleaned and no other
    log shares its file. *)
Theorem C80_client_kept : forall files oS oC oQ oL f before,
  options_are true s_default oS -> options_are false s_default oC ->
  other_options_are s_default (lit "SQL_") oQ -> other_options_are (lit "LADON") [] oL ->
  ~ truthy (o_clean oC) -> log_target U dir (Some (o_file oS)) <> Some f -> dir ++ o_file oQ <> f -> dir ++ o_file oL <> f ->
  lines_in (fresh files) f before -> exists more, lines_in (fst (start_up U FS FC dir can_open now files)) f (before ++ more).
Proof.
  intros files oS oC oQ oL f before OS OC OQ OL NT DS DQ DL B. apply lines_content in B as ->.
  set (at_f := fun a b => exists more, content b f = content a f ++ more).
  assert (RF : forall a, at_f a a) by (intros a; exists []; now rewrite app_nil_r).
  assert (TR : forall a b c, at_f a b -> at_f b c -> at_f a c).
  { intros a b c [x X] [y Y]. exists (x ++ y). now rewrite Y, X, app_assoc. }
  assert (KP : forall a b, keeps a b -> at_f a b) by (intros a b K; now apply keeps_content).
  assert (AH : forall n s st, s_file s <> Some f \/ s_clean s = false -> at_f st (fst (add_handlers can_open n s st))).
  { intros n s st D. exists []. rewrite app_nil_r, add_handlers_content. destruct (s_file s) as [g|]; [|reflexivity].
    destruct D as [D| ->]; [|now rewrite andb_false_r]. destruct (str_eqb g f) eqn:E; [apply str_eqb_eq in E; congruence|]. now rewrite andb_false_r. }
  assert (MK : forall service st o, options_are service s_default o -> log_target U dir (Some (o_file o)) <> Some f \/ ~ truthy (o_clean o) ->
    at_f st (fst (make_logger U FS FC dir can_open now s_default service (Some hgaa) st))).
  { intros service st o O D. unfold make_logger. replace (py_upper U s_default) with s_default by reflexivity. rewrite (read_eq _ _ _ O). cbv zeta.
    eapply TR; [apply KP, (announce_keeps service (s_name (settings_of o)))|]. set (a := announce _ _ _). set (n := child hgaa _).
    set (b := set_level n (s_level (settings_of o)) (get_logger n a)).
    eapply TR; [apply KP, (files_keep a b); unfold b; cbn [set_level with_logger l_files]; apply get_logger_files|].
    assert (D' : s_file (settings_of o) <> Some f \/ s_clean (settings_of o) = false).
    { destruct D as [D|D]; [now left|right]. cbn [settings_of s_clean]. destruct (is_true U (o_clean o)) eqn:E; [|reflexivity]. apply is_true_spec in E. contradiction. }
    pose proof (AH n (settings_of o) b D') as K. destruct (add_handlers can_open n (settings_of o) b) as [c [u|e]]; cbn [fst] in *; [|exact K].
    eapply TR; [exact K|apply KP, log_keeps]. }
  assert (MO : forall n sect prefix msg st o, other_options_are sect prefix o -> dir ++ o_file o <> f ->
    at_f st (fst (make_other U FS FC dir can_open now n sect prefix msg st))).
  { intros n sect prefix msg st o (A1 & A2 & A3 & A4 & A5 & A6) D. rewrite option_conf in *. unfold make_other. cbv zeta.
    rewrite A1. unfold lbind at 1. unfold text at 1. cbv iota.
    rewrite A2. unfold lbind at 1. unfold text at 1, lbind at 1. rewrite A3. unfold lbind at 1. unfold text at 1, lbind at 1. rewrite A4. unfold lbind at 1.
    rewrite A5. unfold lbind at 1. rewrite A6. unfold lbind at 1. unfold text at 1, lbind at 1. cbv iota.
    set (s := Settings _ _ _ _ _ _ _). set (b := set_level n _ _).
    eapply TR; [apply KP, (files_keep st b); unfold b; cbn [set_level with_logger adopt l_files]; apply get_logger_files|].
    assert (D' : s_file s <> Some f \/ s_clean s = false) by (left; cbn [s s_file]; congruence).
    pose proof (AH n s b D') as K. destruct (add_handlers can_open n s b) as [c [u|e]]; cbn [fst] in *; [|exact K].
    eapply TR; [exact K|apply KP, log_keeps]. }
  enough (G : at_f (fresh files) (fst (start_up U FS FC dir can_open now files))).
  { destruct G as [more G]. exists more. apply lines_content. now symmetry. }
  unfold start_up.
  pose proof (MK true (fresh files) oS OS (or_introl DS)) as K1.
  destruct (make_logger U FS FC dir can_open now s_default true (Some hgaa) (fresh files)) as [a [n|e]]; cbn [fst] in *; [|exact K1].
  eapply TR; [exact K1|]. cbv zeta. set (a' := Logs _ _ (Some n) _ _ _). eapply TR; [apply KP, (files_keep a a'); reflexivity|].
  pose proof (MK false a' oC OC (or_intror NT)) as K2.
  destruct (make_logger U FS FC dir can_open now s_default false (Some hgaa) a') as [b [m|e]]; cbn [fst] in *; [|exact K2].
  eapply TR; [exact K2|]. set (b' := Logs _ _ _ (Some m) _ _). eapply TR; [apply KP, (files_keep b b'); reflexivity|].
  pose proof (MO sql_log s_default (lit "SQL_") (lit "SQL") b' oQ OQ DQ) as K3. fold (make_sql_log U FS FC dir can_open now b') in K3.
  destruct (make_sql_log U FS FC dir can_open now b') as [c [u|e]]; cbn [fst] in *; [|exact K3].
  eapply TR; [exact K3|]. now apply (MO ladon_log (lit "LADON") [] (lit "LADON") c oL).
Qed.

(** ** C77: options nobody has set *)

(** The file says nothing about an option. *)
Definition silent (F : conf_file) (sect name : str) : Prop :=
  let key := py_lower U (py_upper U name) in
  unbound key (f_default F) /\ forall o, binds (py_upper U sect) o (f_sections F) -> unbound key o.
Lemma silent_value : forall F B sect name v, file_ok F -> upper_stable U name -> silent F sect name ->
  binds (py_upper U name) v B -> get_conf U F B name sect = CVal v.
Proof.
  intros F B sect name v FO ST [D S] BN. apply C55_value; auto.
  destruct (assoc (py_upper U sect) (f_sections F)) as [o|] eqn:E.
  - apply assoc_binds in E. eapply cv_builtin; eauto.
  - apply assoc_unbound in E. apply cv_builtin with (o := []); auto. unfold unbound. auto.
Qed.

Definition default_services : opts :=
  Opts (lit "hgaa_service.log") (lit "ALL") (lit "%(asctime)s: [%(levelname)s: %(name)s] %(message)s") (lit "services")
       (lit "%m/%d/%Y %I:%M:%S %p") (lit "True") (lit "True").
Definition default_clients : opts :=
  Opts (lit "hgaa_client.log") (lit "ALL") (lit "%(asctime)s: [%(levelname)s: %(name)s] %(message)s") (lit "clients")
       (lit "%m/%d/%Y %I:%M:%S %p") (lit "True") (lit "False").
Definition default_sql : opts :=
  Opts (lit "sql.log") (lit "ALL") (lit "%(asctime)s: [%(levelname)s: %(name)s] %(message)s") [] (lit "%m/%d/%Y %I:%M:%S %p") (lit "True") (lit "True").

(** The logs of services and clients are DEBUG logs to two files and the stream; that of the
    services is cleaned at a start, that of the clients is not. *)
Theorem C77_logs : forall sect, file_ok FS -> file_ok FC ->
  ((forall name, In name (log_options true) -> silent FS sect name) -> options_are true sect default_services) /\
  ((forall name, In name (log_options false) -> silent FC sect name) -> options_are false sect default_clients) /\
  ((forall name, In name (log_options true) -> silent FS s_default name) -> other_options_are s_default (lit "SQL_") default_sql).
Proof.
  intros sect OS OC. split; [|split]; intros S.
  - repeat split; unfold option_is; (apply silent_value; [exact OS|apply ascii_stable; reflexivity|apply S; cbn [log_options map app In]; tauto|
      apply assoc_binds; vm_compute; reflexivity]).
  - repeat split; unfold option_is; (apply silent_value; [exact OC|apply ascii_stable; reflexivity|apply S; cbn [log_options map app In]; tauto|
      apply assoc_binds; vm_compute; reflexivity]).
  - repeat split; unfold option_is; (apply silent_value; [exact OS|apply ascii_stable; reflexivity|apply S; cbn; tauto|
      apply assoc_binds; vm_compute; reflexivity]).
Qed.

End WithConf.

Print Assumptions C77_logs.
Print Assumptions C78_component.
Print Assumptions C79_copies.
Print Assumptions C80_kept.
Print Assumptions C80_start.
Print Assumptions C80_cleaned.
Print Assumptions C80_client_kept.
Print Assumptions C81_start.
Print Assumptions C81_no_option_missing.

(** ** Examples and refutations *)

Definition no_file : conf_file := {| f_default := []; f_sections := [] |}.
Definition ex_dir : str := lit "/srv/hgaa/logs/".
Definition ex_start (FS FC : conf_file) := start_up U0 FS FC ex_dir (fun _ => true) (lit "now").
Definition service_file : str := ex_dir ++ lit "hgaa_service.log".
Definition client_file : str := ex_dir ++ lit "hgaa_client.log".
Definition old_line (s : string) : line := (Handler None None None, Rec (lit "old") 20 (lit s)).
Definition old_files : list (str * list line) := [(service_file, [old_line "a"]); (client_file, [old_line "b"])].
Definition count (st : logs) (f : str) (msg : str) : nat :=
  List.length (filter (fun l => str_eqb (rc_msg (snd l)) msg) (content st f)).

(** A record is written at most once to each file: not so.  Without configuration files the
    record of a component is written twice. *)
Theorem C79_once_refuted : exists FS FC st st' n msg,
  ex_start FS FC [] = (st, LOk tt) /\ make_logger U0 FS FC ex_dir (fun _ => true) (lit "now") (lit "TOOLS") true (l_service st) st = (st', LOk n) /\
  count st' service_file msg = 0%nat /\ count (log n 20 msg st') service_file msg = 2%nat.
Proof.
  exists no_file, no_file. destruct (ex_start no_file no_file []) as [st r] eqn:E. exists st.
  destruct (make_logger U0 no_file no_file ex_dir (fun _ => true) (lit "now") (lit "TOOLS") true (l_service st) st) as [st' q] eqn:M.
  exists st', (lit "hgaa.services.services"), (lit "message").
  vm_compute in E. injection E as <- <-. vm_compute in M. injection M as <- <-. repeat split; vm_compute; reflexivity.
Qed.
Print Assumptions C79_once_refuted.

(** With the files of the repository it is written once. *)
Example ex_once :
  let '(st, r) := ex_start shipped_services shipped_clients old_files in
  let '(st', q) := make_logger U0 shipped_services shipped_clients ex_dir (fun _ => true) (lit "now") (lit "TOOLS") true (l_service st) st in
  r = LOk tt /\ q = LOk (lit "hgaa.services.tools") /\
  count (log (lit "hgaa.services.tools") 20 (lit "message") st') service_file (lit "message") = 1%nat.
Proof. vm_compute. repeat split. Qed.

(** Starting a client leaves the log of the services alone: not so.  Importing hgaa.log, which
    a client does too, empties it, with or without the files of the repository; the line it
    had is gone. *)
Theorem C80_client_refuted : exists FS FC st l,
  ex_start FS FC old_files = (st, LOk tt) /\ lines_in (fresh old_files) service_file [old_line "a"] /\
  lines_in st service_file l /\ ~ In (old_line "a") l.
Proof.
  exists shipped_services, shipped_clients. destruct (ex_start shipped_services shipped_clients old_files) as [st r] eqn:E.
  exists st, (content st service_file). vm_compute in E. injection E as <- <-. split; [reflexivity|]. split; [apply lines_content; vm_compute; reflexivity|].
  split; [now apply lines_content|]. vm_compute. intros H. repeat (destruct H as [H|H]; [discriminate H|]). destruct H.
Qed.
Print Assumptions C80_client_refuted.

(** Without files the log of the services is emptied, that of the clients keeps its line. *)
Example ex_defaults :
  file_ok no_file /\ (forall name, silent U0 no_file s_default name) /\
  options_are U0 no_file no_file true s_default default_services /\ options_are U0 no_file no_file false s_default default_clients /\
  let '(st, r) := ex_start no_file no_file old_files in
  r = LOk tt /\ In (old_line "b") (content st client_file) /\ count st service_file (lit "a") = 0%nat /\
  count (log (lit "hgaa.services") 10 (lit "m") st) service_file (lit "m") = 1%nat.
Proof.
  split; [intros []|]. split; [intros name; split; [intros []|intros o B; inversion B]|].
  split; [repeat split; vm_compute; reflexivity|]. split; [repeat split; vm_compute; reflexivity|].
  vm_compute. repeat split. now left.
Qed.

(** Levels: the log of the services at ERROR, a component at INFO, one at an unknown level. *)
Definition ex_levels : conf_file := {|
  f_default := ini [("log_level", "ERROR"); ("clean_log_on_start", "no")]%string;
  f_sections := [(lit "TOOLS", ini [("log_level", "INFO"); ("log_name", "tools"); ("log_file", "tools.log")]%string);
                 (lit "AAUTH", ini [("log_level", "verbose"); ("log_name", "aauth"); ("log_file", "aauth.log")]%string)] |}.
Example ex_thresholds :
  let '(st, r) := ex_start ex_levels no_file old_files in
  let mk name st := make_logger U0 ex_levels no_file ex_dir (fun _ => true) (lit "now") name true (l_service st) st in
  let '(st, a) := mk (lit "TOOLS") st in
  let '(st, b) := mk (lit "aauth") st in
  let say n lvl := log n lvl (lit "m") st in
  r = LOk tt /\ a = LOk (lit "hgaa.services.tools") /\ b = LOk (lit "hgaa.services.aauth") /\
  count (say (lit "hgaa.services.tools") 10) (ex_dir ++ lit "tools.log") (lit "m") = 0%nat /\
  count (say (lit "hgaa.services.tools") 20) (ex_dir ++ lit "tools.log") (lit "m") = 1%nat /\
  count (say (lit "hgaa.services.tools") 20) service_file (lit "m") = 1%nat /\
  count (say (lit "hgaa.services") 20) service_file (lit "m") = 0%nat /\
  count (say (lit "hgaa.services.aauth") 30) (ex_dir ++ lit "aauth.log") (lit "m") = 0%nat /\
  count (say (lit "hgaa.services.aauth") 40) (ex_dir ++ lit "aauth.log") (lit "m") = 1%nat /\
  count st service_file (lit "a") = 1%nat.
Proof. vm_compute. repeat split. Qed.

(** A file that cannot be opened. *)
Example ex_no_open : snd (start_up U0 no_file no_file ex_dir (fun f => negb (str_eqb f client_file)) (lit "now") old_files) = LErr LOpen.
Proof. vm_compute. reflexivity. Qed.

(** ** C82: the log level of Ladon *)

(** Every LOG_LEVEL gives Ladon one of six levels, by its meaning. *)
Theorem C82_ladon : forall U s,
  let n := py_upper U s in
  let l := ladon_level (str_to_log_level U s) in
  (l = Some 6 <-> n = lit "ALL" \/ n = lit "DEBUG") /\ (l = Some 5 <-> n = lit "WARN" \/ n = lit "WARNING") /\
  (l = Some 4 <-> n = lit "INFO" \/ n = lit "INFORMATION") /\ (l = Some 3 <-> n = lit "ERROR") /\ (l = Some 1 <-> n = lit "CRITICAL") /\
  (l = Some 0 <-> ~ In n [lit "ALL"; lit "DEBUG"; lit "INFO"; lit "INFORMATION"; lit "WARN"; lit "WARNING"; lit "ERROR"; lit "CRITICAL"]) /\
  l <> None.
Proof.
  intros U s n l. destruct (C66_level U s) as (A & B & C & D & E & F). fold n in A, B, C, D, E, F.
  rewrite <- A, <- B, <- C, <- D, <- E, <- F. unfold l, ladon_level.
  assert (V : In (str_to_log_level U s) [10; 20; 30; 40; 50; 0]).
  { unfold str_to_log_level. cbv zeta. repeat (match goal with |- context [if ?b then _ else _] => destruct b end; [cbn [In]; tauto|]). cbn [In]. tauto. }
  cbn [In] in V. destruct V as [<-|[<-|[<-|[<-|[<-|[<-|[]]]]]]]; cbn; repeat split; intros; (reflexivity || discriminate || congruence).
Qed.
Print Assumptions C82_ladon.

(** A level that lets more records pass gives Ladon at least as high a level: not so. *)
Theorem C82_order_refuted : exists a b, forall U, exists x y,
  str_to_log_level U a < str_to_log_level U b /\ ladon_level (str_to_log_level U a) = Some x /\ ladon_level (str_to_log_level U b) = Some y /\ x < y.
Proof. exists (lit "INFO"), (lit "WARN"). intros U. exists 4, 5. repeat split. Qed.
Print Assumptions C82_order_refuted.
