(** * ToolsProps2: the command line, the start of the services and what they say about
    themselves (C89-C92, C94) *)

From Coq Require Import NArith ZArith List Bool String Lia.
From Verif Require Import PyBase LexSpec LexProofs LexCase Struct BytesProofs AttCert CertSpec CertProofs CertProofs2 CertProps CertProps2 Config ConfigProps Logging LoggingProps
  PAuth AAuth AAuthSpec AAuthProofs AAuthProps Database DatabaseProps Tools ToolsProps.
Import ListNotations.
Open Scope Z_scope.

(** ** C90: command lines *)

Definition is_word (U : unicode) (words : list string) (c : str) : Prop := exists x, In x words /\ py_lower U c = lit x.
Inductive means (U : unicode) : list str -> command -> Prop :=
| mn_all : forall c, is_word U ["build"]%string c -> means U [c; lit "all"] (CmdBuild [lit "aauth"; lit "pauth"])
| mn_build : forall c l, is_word U ["build"]%string c -> l <> [] -> l <> [lit "all"] -> means U (c :: l) (CmdBuild (map (py_lower U) l))
| mn_key : forall c a, is_word U ["genkey"]%string c -> is_word U ["aauth"]%string a -> means U [c; a] CmdGenKey
| mn_pop : forall c a, is_word U ["populate"; "pop"]%string c -> is_word U ["all"]%string a -> means U [c; a] (CmdPopulate [BAAuth; BPAuth])
| mn_aauth : forall c a, is_word U ["populate"; "pop"]%string c -> is_word U ["aauth"]%string a -> means U [c; a] (CmdPopulate [BAAuth])
| mn_pauth : forall c a, is_word U ["populate"; "pop"]%string c -> is_word U ["pauth"]%string a -> means U [c; a] (CmdPopulate [BPAuth])
| mn_pass : forall c s p, is_word U ["password"; "pass"]%string c -> means U [c; s; p] (CmdPassword s p)
| mn_gen : forall c n, is_word U ["genatts"]%string c -> means U [c; n] (CmdGenAtts n)
| mn_other : forall c args, ~ is_word U ["build"; "genkey"; "populate"; "pop"; "password"; "pass"; "genatts"]%string c -> means U (c :: args) CmdNothing.

Lemma word1 : forall U x c, is_word U [x] c <-> py_lower U c = lit x.
Proof. intros U x c. split; [intros (y & [<-|[]] & E); exact E|intros E; exists x; split; [now left|exact E]]. Qed.
Lemma word2 : forall U x y c, is_word U [x; y] c <-> py_lower U c = lit x \/ py_lower U c = lit y.
Proof. intros U x y c. split; [intros (z & [<-|[<-|[]]] & E); auto|intros [E|E]; [exists x|exists y]; (split; [cbn; tauto|exact E])]. Qed.

Ltac eqs := repeat match goal with
  | H : str_eqb _ _ = true |- _ => apply str_eqb_eq in H
  | H : _ || _ = true |- _ => apply orb_true_iff in H
  | H : _ || _ = false |- _ => apply orb_false_iff in H as [? ?]
  end.
Theorem C90_commands : forall U argv c, dispatch U argv = Some c <-> means U argv c.
Proof.
  intros U argv c. destruct argv as [|x args]; [split; [discriminate|intros H; inversion H]|]. cbn [dispatch]. cbv zeta.
  destruct (str_eqb (py_lower U x) (lit "build")) eqn:E1.
  { apply str_eqb_eq in E1. split.
    - destruct args as [|a [|b args]]; [discriminate| |].
      + destruct (str_eqb a (lit "all")) eqn:A; intros [= <-].
        * apply str_eqb_eq in A. subst a. apply mn_all. now apply word1.
        * apply (mn_build U x [a]); [now apply word1|discriminate|]. intros [= ->]. now rewrite str_eqb_refl in A.
      + intros [= <-]. apply (mn_build U x (a :: b :: args)); [now apply word1|discriminate|discriminate].
    - intros H. inversion H as [c0 W|c0 l W N1 N2|c0 a W V|c0 a W V|c0 a W V|c0 a W V|c0 s p W|c0 n W|c0 l W]; subst;
        try (apply word1 in W; rewrite E1 in W; discriminate W); try (apply word2 in W; rewrite E1 in W; destruct W as [W|W]; discriminate W).
      + reflexivity.
      + destruct args as [|a [|b args]]; [congruence| |reflexivity]. destruct (str_eqb a (lit "all")) eqn:A; [|reflexivity]. apply str_eqb_eq in A. congruence.
      + destruct W. exists "build"%string. split; [now left|exact E1]. }
  destruct (str_eqb (py_lower U x) (lit "genkey")) eqn:E2.
  { apply str_eqb_eq in E2. clear E1. split.
    - destruct args as [|a [|b args]]; [discriminate| |discriminate]. destruct (str_eqb (py_lower U a) (lit "aauth")) eqn:A; [|discriminate]. intros [= <-].
      apply str_eqb_eq in A. apply mn_key; now apply word1.
    - intros H. inversion H as [c0 W|c0 l W N1 N2|c0 a W V|c0 a W V|c0 a W V|c0 a W V|c0 s p W|c0 n W|c0 l W]; subst;
        try (apply word1 in W; rewrite E2 in W; discriminate W); try (apply word2 in W; rewrite E2 in W; destruct W as [W|W]; discriminate W).
      + apply word1 in V. now rewrite V.
      + destruct W. exists "genkey"%string. split; [cbn; tauto|exact E2]. }
  destruct (str_eqb (py_lower U x) (lit "populate") || str_eqb (py_lower U x) (lit "pop")) eqn:E3.
  { assert (P : is_word U ["populate"; "pop"]%string x) by (apply word2; eqs; destruct E3 as [E3|E3]; apply str_eqb_eq in E3; auto). clear E1 E2. split.
    - destruct args as [|a [|b args]]; [discriminate| |discriminate].
      destruct (str_eqb (py_lower U a) (lit "all")) eqn:A; [intros [= <-]; eqs; apply mn_pop; [exact P|now apply word1]|].
      destruct (str_eqb (py_lower U a) (lit "aauth")) eqn:B; [intros [= <-]; eqs; apply mn_aauth; [exact P|now apply word1]|].
      destruct (str_eqb (py_lower U a) (lit "pauth")) eqn:C; [intros [= <-]; eqs; apply mn_pauth; [exact P|now apply word1]|discriminate].
    - apply word2 in P. intros H. inversion H as [c0 W|c0 l W N1 N2|c0 a W V|c0 a W V|c0 a W V|c0 a W V|c0 s p W|c0 n W|c0 l W]; subst;
        try (apply word1 in V; rewrite V; reflexivity);
        try (apply word1 in W; rewrite W in P; destruct P as [P|P]; discriminate P);
        try (apply word2 in W; destruct W as [W|W]; rewrite W in P; destruct P as [P|P]; discriminate P).
      destruct W. destruct P as [P|P]; [exists "populate"%string|exists "pop"%string]; (split; [cbn; tauto|exact P]). }
  destruct (str_eqb (py_lower U x) (lit "password") || str_eqb (py_lower U x) (lit "pass")) eqn:E4.
  { assert (P : is_word U ["password"; "pass"]%string x) by (apply word2; eqs; destruct E4 as [E4|E4]; apply str_eqb_eq in E4; auto). clear E1 E2 E3. split.
    - destruct args as [|a [|b [|d args]]]; try discriminate. intros [= <-]. now apply mn_pass.
    - apply word2 in P. intros H. inversion H as [c0 W|c0 l W N1 N2|c0 a W V|c0 a W V|c0 a W V|c0 a W V|c0 s p W|c0 n W|c0 l W]; subst;
        try reflexivity;
        try (apply word1 in W; rewrite W in P; destruct P as [P|P]; discriminate P);
        try (apply word2 in W; destruct W as [W|W]; rewrite W in P; destruct P as [P|P]; discriminate P).
      destruct W. destruct P as [P|P]; [exists "password"%string|exists "pass"%string]; (split; [cbn; tauto|exact P]). }
  destruct (str_eqb (py_lower U x) (lit "genatts")) eqn:E5.
  { apply str_eqb_eq in E5. clear E1 E2 E3 E4. split.
    - destruct args as [|a [|b args]]; try discriminate. intros [= <-]. apply mn_gen. now apply word1.
    - intros H. inversion H as [c0 W|c0 l W N1 N2|c0 a W V|c0 a W V|c0 a W V|c0 a W V|c0 s p W|c0 n W|c0 l W]; subst;
        try reflexivity; try (apply word1 in W; rewrite E5 in W; discriminate W); try (apply word2 in W; rewrite E5 in W; destruct W as [W|W]; discriminate W).
      destruct W. exists "genatts"%string. split; [cbn; tauto|exact E5]. }
  assert (NW : forall y, In y ["build"; "genkey"; "populate"; "pop"; "password"; "pass"; "genatts"]%string -> py_lower U x <> lit y).
  { apply orb_false_iff in E3 as [E3 E3'], E4 as [E4 E4']. intros y I Q. rewrite Q in *. cbn [In] in I.
    repeat destruct I as [<-|I]; try (rewrite str_eqb_refl in *; discriminate). exact I. }
  split.
  - intros [= <-]. apply mn_other. intros (y & I & Q). now apply (NW y).
  - intros H. inversion H as [c0 W|c0 l W N1 N2|c0 a W V|c0 a W V|c0 a W V|c0 a W V|c0 s p W|c0 n W|c0 l W]; subst;
      try reflexivity; try (destruct W as (y & I & Q); exfalso; apply (NW y); [cbn [In] in *; tauto|exact Q]).
Qed.

Section WithKeys.
Variable U : unicode.
Variable create_ok : str -> bool.
Variable fk : str -> bool.
Variable K : crypto.
Variable seal : prv K -> option str -> res bytes.
Variable unseal : bytes -> option str -> res (prv K).
Variable pem : prv K -> bytes.
Variable bits : prv K -> Z.
Variable hashpw : bytes -> res bytes.
Variable can_write : str -> bool.
Notation main := (main U create_ok fk K seal hashpw can_write).
Notation boot := (boot U create_ok K unseal).
Notation opt_is := (opt_is U).

Lemma tconf_spec : forall F name sect v, tconf U F name sect = TOk v <-> opt_is F sect name v.
Proof. intros F name sect v. unfold tconf, DatabaseProps.opt_is. destruct (get_conf U F service_defaults name sect); split; congruence. Qed.
Lemma tconf_err : forall F name sect e, tconf U F name sect = TErr e -> e <> TUsage.
Proof. intros F name sect e. unfold tconf. destruct (get_conf U F service_defaults name sect); congruence. Qed.

(** Exactly the other command lines are refused as wrong, and then nothing happens. *)
Theorem C90_usage : forall F key argv t,
  ((forall c, ~ means U argv c) -> main F key argv t = (t, TErr TUsage)) /\
  (snd (main F key argv t) = TErr TUsage -> forall c, ~ means U argv c).
Proof.
  intros F key argv t. unfold Tools.main. split.
  - intros N. destruct (dispatch U argv) as [c|] eqn:D; [|reflexivity]. apply C90_commands in D. now destruct (N c).
  - destruct (dispatch U argv) as [c|] eqn:D; [|intros _ c C; apply C90_commands in C; congruence]. clear D.
    assert (OD : forall x : dres unit, of_dres x <> TErr TUsage) by (intros []; cbn; congruence).
    destruct c as [l| |l|s p|n|]; cbn [run_command].
    + destruct (build_database U create_ok F (t_world t) l) as [w r]. intros H. now destruct (OD r).
    + destruct (tconf U F (lit "KEY_FILE") s_aauth) as [f|e] eqn:A; cbn [tbind].
      2:{ cbn [snd]. intros [= ->]. now apply tconf_err in A. }
      destruct (tconf U F (lit "KEY_PASS") s_aauth) as [p|e] eqn:B; cbn [tbind].
      2:{ cbn [snd]. intros [= ->]. now apply tconf_err in B. }
      unfold gen_aauth_key. destruct (seal key p); [|discriminate]. destruct f as [f|]; [|discriminate]. destruct (can_write f); discriminate.
    + destruct (populate_sets U create_ok fk F (t_world t) l) as [w r]. intros H. now destruct (OD r).
    + destruct (password_hash U hashpw F s p) as [h|e] eqn:A; [discriminate|]. cbn [snd]. intros [= ->]. unfold password_hash in A.
      destruct (tconf U F (lit "PASS_PEPPER") (py_upper U s)) as [x|e] eqn:B; cbn [tbind] in A; [|injection A as ->; now apply tconf_err in B].
      destruct (utf8_encode _) as [b|]; cbn in A; [|discriminate]. destruct (hashpw b) as [h|]; cbn in A; [|discriminate]. destruct (utf8_decode h); discriminate.
    + destruct (int_base U 10 n) as [z|e]; [|discriminate]. destruct (gen_atts U create_ok fk F (t_world t) z) as [w r]. intros H. now destruct (OD r).
    + discriminate.
Qed.
(** Whatever a command does, and whether it succeeds or raises: only genkey writes a file,
    and only the one named KEY_FILE in [AAUTH]; only build, populate and genatts touch the
    databases; only password prints a hash, one. *)
Theorem C90_effects : forall F key argv t t' r, main F key argv t = (t', r) ->
  (t_files t' <> t_files t -> means U argv CmdGenKey /\ r = TOk tt /\
     exists f data pass, opt_is F s_aauth (lit "KEY_FILE") (Some f) /\ opt_is F s_aauth (lit "KEY_PASS") pass /\ can_write f = true /\
       seal key pass = Ok data /\ forall g, assoc g (t_files t') = if str_eqb f g then Some data else assoc g (t_files t)) /\
  (t_world t' <> t_world t -> (exists l, means U argv (CmdBuild l)) \/ (exists l, means U argv (CmdPopulate l)) \/ exists n, means U argv (CmdGenAtts n)) /\
  (t_hashes t' <> t_hashes t -> r = TOk tt /\ exists s p h, means U argv (CmdPassword s p) /\ t_hashes t' = t_hashes t ++ [(p, h)]).
Proof.
  intros F key argv t t' r. unfold Tools.main. destruct (dispatch U argv) as [c|] eqn:D; [|intros [= <- <-]; (split; [|split]); intros N; now destruct N].
  apply C90_commands in D. destruct c as [l| |l|s p|n|]; cbn [run_command].
  - destruct (build_database U create_ok F (t_world t) l) as [w x]. intros [= <- <-]. cbn [with_world t_files t_hashes t_world]. split; [congruence|]. split; [eauto|congruence].
  - destruct (tconf U F (lit "KEY_FILE") s_aauth) as [f|e] eqn:A; cbn [tbind].
    2:{ intros [= <- <-]. (split; [|split]); intros N; now destruct N. }
    destruct (tconf U F (lit "KEY_PASS") s_aauth) as [p|e] eqn:B; cbn [tbind].
    2:{ intros [= <- <-]. (split; [|split]); intros N; now destruct N. }
    apply tconf_spec in A, B. unfold gen_aauth_key. destruct (seal key p) as [data|e] eqn:S; [|intros [= <- <-]; (split; [|split]); intros N; now destruct N].
    destruct f as [f|]; [|intros [= <- <-]; (split; [|split]); intros N; now destruct N]. destruct (can_write f) eqn:C; [|intros [= <- <-]; (split; [|split]); intros N; now destruct N].
    intros [= <- <-]. cbn [t_files t_hashes t_world]. split; [|split; congruence]. intros _. split; [exact D|]. split; [reflexivity|].
    exists f, data, p. split; [exact A|]. split; [exact B|]. split; [exact C|]. split; [exact S|]. intros g. apply assoc_set.
  - destruct (populate_sets U create_ok fk F (t_world t) l) as [w x]. intros [= <- <-]. cbn [with_world t_files t_hashes t_world]. split; [congruence|]. split; [eauto|congruence].
  - destruct (password_hash U hashpw F s p) as [h|e]; intros [= <- <-]; cbn [t_files t_hashes t_world]; (split; [congruence|]; split; [congruence|]); intros N; [|now destruct N].
    split; [reflexivity|]. exists s, p, h. auto.
  - destruct (int_base U 10 n) as [z|e]; [|intros [= <- <-]; (split; [|split]); intros N; now destruct N].
    destruct (gen_atts U create_ok fk F (t_world t) z) as [w x]. intros [= <- <-]. cbn [with_world t_files t_hashes t_world]. split; [congruence|]. split; [eauto|congruence].
  - intros [= <- <-]. (split; [|split]); intros N; now destruct N.
Qed.
(** Only "all" in lower case builds all: spelled otherwise it is an unknown service. *)
Theorem C90_capitals : forall F key c a t, py_lower U c = lit "build" -> py_lower U a = lit "all" -> a <> lit "all" ->
  main F key [c; a] t = (t, TErr (TDb DUnknown)).
Proof.
  intros F key c a t C A N. unfold Tools.main.
  assert (D : dispatch U [c; a] = Some (CmdBuild [lit "all"])).
  { rewrite <- A. apply C90_commands. apply (mn_build U c [a]); [now apply word1|discriminate|congruence]. }
  rewrite D. cbn [run_command]. change (build_database U create_ok F (t_world t) [lit "all"]) with (t_world t, @DErr unit DUnknown).
  cbn [of_dres]. unfold with_world. now destruct t.
Qed.

(** *** Setting up: build all, then populate all, each in a process of its own *)

Definition database (F : conf_file) (b : base) (url : str) : Prop :=
  exists o ty, db_options U F (service_name b) o ty /\ url_of U o ty url /\ create_ok url = true /\ url <> lit "sqlite://".
Lemma database_engine : forall F b url w n, database F b url -> py_upper U n = service_name b -> assoc n (w_engines w) = None ->
  exists w', get_engine U create_ok F w n = (w', DOk (Some (Engine (w_next w) url))) /\ w_dbs w' = w_dbs w /\
       forall m, assoc m (w_engines w') = if str_eqb n m then Some (Engine (w_next w) url) else assoc m (w_engines w).
Proof.
  intros F b url w n (o & ty & O & R & C & N) UP A.
  assert (O' : db_options U F n o ty).
  { assert (E : py_upper U n = py_upper U (service_name b)) by (rewrite UP; destruct b; reflexivity).
    destruct O as (O1 & O2 & O3 & O4 & O5 & O6 & l & O7). unfold db_options, DatabaseProps.opt_is in *.
    rewrite !(conf_sect U F service_defaults _ _ _ E). eauto 10. }
  destruct (C83_made U create_ok F w n o ty A O') as (X & _). now apply X.
Qed.
Lemma at_url : forall i url, url <> lit "sqlite://" -> place_of (Engine i url) = At url.
Proof. intros i url N. unfold place_of. cbn [e_url]. destruct (str_eqb url (lit "sqlite://")) eqn:E; [apply str_eqb_eq in E; contradiction|reflexivity]. Qed.
Lemma create_engines : forall e b w, w_engines (create_all e b w) = w_engines w.
Proof. intros e b w. unfold create_all. destruct (place_of e); reflexivity. Qed.
Lemma build_all : forall F dbs ua up, database F BAAuth ua -> database F BPAuth up ->
  exists w, build_database U create_ok F (started dbs) [lit "aauth"; lit "pauth"] = (w, DOk tt) /\
    In BAAuth (b_built (db_at w (At ua))) /\ In BPAuth (b_built (db_at w (At up))) /\
    (forall u, b_rows (db_at w (At u)) = b_rows (db_at (started dbs) (At u))) /\
    (forall p, p <> At ua -> p <> At up -> db_at w p = db_at (started dbs) p).
Proof.
  intros F dbs ua up DA DP. cbn [build_database]. change (base_named (lit "aauth")) with (Some BAAuth). change (base_named (lit "pauth")) with (Some BPAuth). cbv iota.
  destruct (database_engine F BAAuth ua (started dbs) (lit "aauth") DA) as (w1 & -> & E1 & A1); [reflexivity|reflexivity|].
  set (w2 := create_all (Engine (w_next (started dbs)) ua) BAAuth w1).
  destruct (database_engine F BPAuth up w2 (lit "pauth") DP) as (w3 & -> & E3 & A3); [reflexivity|unfold w2; rewrite create_engines, A1; reflexivity|].
  assert (NA : ua <> lit "sqlite://") by (destruct DA as (o & ty & _ & _ & _ & N); exact N).
  assert (NP : up <> lit "sqlite://") by (destruct DP as (o & ty & _ & _ & _ & N); exact N).
  set (w4 := create_all (Engine (w_next w2) up) BPAuth w3). exists w4. split; [reflexivity|].
  assert (D1 : forall p, db_at w1 p = db_at (started dbs) p) by (intros p; now apply db_at_dbs).
  assert (D3 : forall p, db_at w3 p = db_at w2 p) by (intros p; now apply db_at_dbs).
  assert (D2 : forall p, db_at w2 p = if place_eqb (At ua) p then let d := db_at w1 p in DB (if built d BAAuth then b_built d else b_built d ++ [BAAuth]) (b_rows d) else db_at w1 p).
  { intros p. unfold w2. rewrite create_at, (at_url _ ua NA). reflexivity. }
  assert (D4 : forall p, db_at w4 p = if place_eqb (At up) p then let d := db_at w3 p in DB (if built d BPAuth then b_built d else b_built d ++ [BPAuth]) (b_rows d) else db_at w3 p).
  { intros p. unfold w4. rewrite create_at, (at_url _ up NP). reflexivity. }
  clearbody w2 w4. cbv zeta in D2, D4. split; [|split; [|split]].
  - assert (I : In BAAuth (b_built (db_at w2 (At ua)))).
    { rewrite D2, place_eqb_refl. cbn [b_built]. destruct (built _ BAAuth) eqn:Q; [now apply built_spec|apply in_app_iff; right; now left]. }
    rewrite D4. destruct (place_eqb (At up) (At ua)) eqn:E; rewrite D3; [|exact I]. cbn [b_built]. destruct (built _ BPAuth); [exact I|apply in_app_iff; now left].
  - rewrite D4, place_eqb_refl. cbn [b_built]. destruct (built _ BPAuth) eqn:Q; [now apply built_spec|apply in_app_iff; right; now left].
  - intros u. rewrite D4. destruct (place_eqb (At up) (At u)); cbn [b_rows]; rewrite D3, D2; (destruct (place_eqb (At ua) (At u)); cbn [b_rows]; now rewrite D1).
  - intros p N1 N2. rewrite D4. destruct (place_eqb (At up) p) eqn:E; [apply place_eqb_eq in E; congruence|]. rewrite D3, D2.
    destruct (place_eqb (At ua) p) eqn:E'; [apply place_eqb_eq in E'; congruence|]. apply D1.
Qed.

Lemma pop_engines : forall F w (n : str) l wf w1 e, opened U create_ok F w n w1 e ->
  w_engines (fst (populate_db U create_ok fk F w n l wf false)) = w_engines w1 /\ w_next (fst (populate_db U create_ok fk F w n l wf false)) = w_next w1.
Proof.
  intros F w n l wf w1 e ((ln & L) & (v & V) & G). unfold DatabaseProps.opt_is in L, V. unfold populate_db. cbv zeta iota. unfold sconf. rewrite L, V. cbn [dbind]. rewrite G. cbn [dtext].
  assert (S : forall w2 (r : dres unit), (if wf then match base_named (py_lower U n) with Some b => wipe (Some e) b w1 | None => (w1, DErr DUnknown) end else (w1, DOk tt)) = (w2, r) ->
     w_engines w2 = w_engines w1 /\ w_next w2 = w_next w1).
  { intros w2 r. destruct wf; [|intros [= <- <-]; auto]. destruct (base_named _) as [b|]; [|intros [= <- <-]; auto]. intros W. now apply wipe_engines in W. }
  destruct (if wf then _ else _) as [w2 [u|x]]; destruct (S _ _ eq_refl) as [S1 S2]; [|auto].
  destruct (insert fk (Some e) l w2) as [w3 [u'|x]] eqn:I; apply insert_engines in I as [I1 I2]; cbn [fst]; split; congruence.
Qed.
Lemma same_service : forall r s b, same_id r s -> of_service b r -> of_service b s.
Proof. intros r s b S O. destruct S; inversion O; subst; constructor. Qed.
Lemma rows_addable : forall check b tables kept, In b tables -> (forall r, In r kept -> ~ of_service b r) -> addable check tables kept (test_rows b).
Proof.
  intros check b tables kept T KN.
  assert (SV : forall r, In r (test_rows b) -> of_service b r).
  { intros r I. apply base_of_spec. revert r I. apply Forall_forall. destruct b; repeat constructor. }
  assert (CL : clash same_key (test_rows b) [] = false) by (destruct b; vm_compute; reflexivity). apply clash_spec in CL as [CL _].
  assert (RF : forall r, In r (test_rows b) -> has_parents (test_rows b) r).
  { intros r I. apply refs_ok_spec. assert (Q : forallb (refs_ok (test_rows b)) (test_rows b) = true) by (destruct b; vm_compute; reflexivity).
    rewrite forallb_forall in Q. now apply Q. }
  split; [|split; [exact CL|split]].
  - intros r c I O. apply SV in I. apply base_of_spec in I, O. congruence.
  - intros r s I J S. apply (KN s J). apply (same_service r); auto.
  - intros _ r I. specialize (RF r I). assert (MO : forall x, In x (test_rows b) -> In x (kept ++ test_rows b)) by (intros x J; apply in_app_iff; now right).
    destruct r; cbn [has_parents] in *; auto; destruct RF as [(x & A & B) (y & C & D)]; split; eauto.
Qed.
(** One set of example rows. *)
Lemma pop_set : forall F b url w, database F b url -> assoc (service_name b) (w_engines w) = None -> In b (b_built (db_at w (At url))) ->
  exists w' l', populate_db U create_ok fk F w (upper_name b) (fresh_rows (test_rows b)) true false = (w', (l', DOk tt)) /\
    b_built (db_at w' (At url)) = b_built (db_at w (At url)) /\
    (exists kept, without b (b_rows (db_at w (At url))) kept /\ b_rows (db_at w' (At url)) = kept ++ test_rows b) /\
    (forall p, p <> At url -> db_at w' p = db_at w p) /\
    (forall m, m <> service_name b -> assoc m (w_engines w') = assoc m (w_engines w)).
Proof.
  intros F b url w D A B. pose proof D as D'. destruct (database_engine F b url w (service_name b) D) as (w1 & G & E1 & A1); [destruct b; reflexivity|exact A|].
  destruct D as (o & ty & O & R & C & N). destruct O as (O1 & O2 & O3 & O4 & O5 & O6 & l & O7).
  assert (UN : upper_name b = service_name b) by (destruct b; reflexivity). rewrite UN.
  assert (OP : opened U create_ok F w (if false then service_name b ++ lit "_TEST" else service_name b) w1 (Engine (w_next w) url)).
  { split; [eauto|]. split; [eauto|exact G]. }
  set (kept := filter (fun r => negb (base_eqb (base_of r) b)) (b_rows (db_at w (At url)))).
  assert (WO : without b (b_rows (db_at w (At url))) kept) by now apply without_spec.
  assert (NM : named U (service_name b) b) by (destruct b; [left|right]; split; reflexivity).
  assert (NU : forall c, named U (service_name b) c -> c = b) by (intros c; destruct b; intros [[Q ->]|[Q ->]]; try reflexivity; discriminate Q).
  pose proof (C84_populate U create_ok fk F w (service_name b) (fresh_rows (test_rows b)) true false w1 (Engine (w_next w) url) (test_rows b) kept OP (pending_fresh _)) as X.
  pose proof (pop_engines F w (service_name b) (fresh_rows (test_rows b)) true w1 _ OP) as [PE _].
  cbv zeta in X. rewrite (at_url _ url N) in X. destruct (populate_db U create_ok fk F w (service_name b) (fresh_rows (test_rows b)) true false) as [w' [l' r]].
  destruct X as (X & _ & Y); [discriminate|intros _ c Q; apply NU in Q; now subst|]. cbn [fst] in PE.
  destruct X as (-> & E & _).
  { split; [eauto|]. apply rows_addable; [exact B|]. intros r0 I Q. apply filter_In in I as [_ I]. apply base_of_spec in Q. rewrite Q in I. destruct b; discriminate I. }
  exists w', l'. split; [reflexivity|]. rewrite E. cbn [b_built b_rows]. split; [reflexivity|]. split; [eauto|]. split; [exact Y|].
  intros m M. rewrite PE, A1. destruct (str_eqb (service_name b) m) eqn:Q; [apply str_eqb_eq in Q; congruence|reflexivity].
Qed.
(** If each service has a database that can be opened and is not in memory, "build all" and
    "populate all" succeed, whatever the databases contain.  Afterwards the tables of each
    service contain the example rows in order and nothing else; no other database and no file
    has changed. *)
Theorem C90_setup : forall F key t dbs ua up, database F BAAuth ua -> database F BPAuth up ->
  exists t1 t2, main F key [lit "build"; lit "all"] (with_world (started dbs) t) = (t1, TOk tt) /\
    main F key [lit "populate"; lit "all"] (with_world (started (w_dbs (t_world t1))) t1) = (t2, TOk tt) /\
    t_files t2 = t_files t /\ t_hashes t2 = t_hashes t /\
    In BAAuth (b_built (db_at (t_world t2) (At ua))) /\ without BPAuth (b_rows (db_at (t_world t2) (At ua))) test_aauth /\
    In BPAuth (b_built (db_at (t_world t2) (At up))) /\ without BAAuth (b_rows (db_at (t_world t2) (At up))) test_pauth /\
    (forall p, p <> At ua -> p <> At up -> db_at (t_world t2) p = db_at (started dbs) p).
Proof.
  intros F key t dbs ua up DA DP. destruct (build_all F dbs ua up DA DP) as (wb & HB & BA & BP & RB & OB).
  unfold Tools.main. change (dispatch U [lit "build"; lit "all"]) with (Some (CmdBuild [lit "aauth"; lit "pauth"])).
  change (dispatch U [lit "populate"; lit "all"]) with (Some (CmdPopulate [BAAuth; BPAuth])). cbn [run_command with_world t_world]. rewrite HB. cbn [of_dres].
  set (t1 := with_world wb (with_world (started dbs) t)). set (s := started (w_dbs (t_world t1))).
  assert (DS : forall p, db_at s p = db_at wb p) by (intros p; now apply db_at_dbs).
  destruct (pop_set F BAAuth ua s DA) as (w1 & l1 & P1 & B1 & (k1 & W1 & R1) & O1 & E1); [reflexivity|now rewrite DS|].
  assert (BP1 : In BPAuth (b_built (db_at w1 (At up)))).
  { destruct (place_eqb (At up) (At ua)) eqn:Q.
    - apply place_eqb_eq in Q. rewrite Q, B1, DS, <- Q. exact BP.
    - rewrite O1, DS; [exact BP|]. intros X. rewrite X, place_eqb_refl in Q. discriminate. }
  destruct (pop_set F BPAuth up w1 DP) as (w2 & l2 & P2 & B2 & (k2 & W2 & R2) & O2 & E2); [rewrite E1; [reflexivity|discriminate]|exact BP1|].
  exists t1, (with_world w2 t1). split; [reflexivity|].
  assert (PS : populate_sets U create_ok fk F s [BAAuth; BPAuth] = (w2, DOk tt)).
  { cbn [populate_sets]. rewrite P1. cbn [populate_sets]. rewrite P2. reflexivity. }
  match goal with |- (let '(_, _) := ?x in _) = _ /\ _ => change x with (populate_sets U create_ok fk F s [BAAuth; BPAuth]) end.
  rewrite PS. split; [reflexivity|]. split; [reflexivity|]. split; [reflexivity|]. cbn [with_world t_world].
  assert (NA : forall l, filter (fun r => negb (base_eqb (base_of r) BPAuth)) (filter (fun r => negb (base_eqb (base_of r) BAAuth)) l) = []).
  { intros l. induction l as [|r l IH]; [reflexivity|]. cbn [filter]. destruct (base_of r) eqn:E; cbn [base_eqb negb]; [exact IH|]. cbn [filter]. now rewrite E. }
  assert (NP : forall l, filter (fun r => negb (base_eqb (base_of r) BAAuth)) (filter (fun r => negb (base_eqb (base_of r) BPAuth)) l) = []).
  { intros l. induction l as [|r l IH]; [reflexivity|]. cbn [filter]. destruct (base_of r) eqn:E; cbn [base_eqb negb]; [|exact IH]. cbn [filter]. now rewrite E. }
  assert (FA : forall l, filter (fun r => negb (base_eqb (base_of r) BPAuth)) (filter (fun r => negb (base_eqb (base_of r) BPAuth)) l) =
                         filter (fun r => negb (base_eqb (base_of r) BPAuth)) l).
  { intros l. induction l as [|r l IH]; [reflexivity|]. cbn [filter]. destruct (negb (base_eqb (base_of r) BPAuth)) eqn:E; [|exact IH]. cbn [filter]. now rewrite E, IH. }
  apply without_spec in W1, W2. subst k1 k2.
  assert (TA : filter (fun r => negb (base_eqb (base_of r) BPAuth)) (b_rows (db_at w1 (At ua))) = test_aauth) by (rewrite R1, filter_app, NA; reflexivity).
  assert (TP : filter (fun r => negb (base_eqb (base_of r) BAAuth)) (b_rows (db_at w2 (At up))) = test_pauth) by (rewrite R2, filter_app, NP; reflexivity).
  split; [|split; [|split; [|split]]].
  - destruct (place_eqb (At up) (At ua)) eqn:Q.
    + apply place_eqb_eq in Q. rewrite <- Q, B2, Q, B1, DS. exact BA.
    + rewrite O2, B1, DS; [exact BA|]. intros X. rewrite X, place_eqb_refl in Q. discriminate.
  - apply without_spec. symmetry. destruct (place_eqb (At up) (At ua)) eqn:Q.
    + apply place_eqb_eq in Q. rewrite <- Q, R2, filter_app, FA, Q, TA. cbn [test_rows]. change (filter (fun r => negb (base_eqb (base_of r) BPAuth)) test_pauth) with (@nil row). apply app_nil_r.
    + rewrite O2; [exact TA|]. intros X. rewrite X, place_eqb_refl in Q. discriminate.
  - rewrite B2. exact BP1.
  - apply without_spec. now symmetry.
  - intros p N1 N2. rewrite O2, O1, DS by assumption. now apply OB.
Qed.

(** ** C91: the start of the attribute authority *)

(** A blank host is shown as localhost. *)
Definition shown (host h : str) : Prop :=
  (Forall (fun c => isspace U c = true) host /\ h = lit "localhost") \/ (~ Forall (fun c => isspace U c = true) host /\ h = host).
Lemma strip_blank : forall s, py_strip U s = [] <-> Forall (fun c => isspace U c = true) s.
Proof.
  assert (G : forall s, (fix go (s : str) : str := match s with c :: r => if isspace U c then go r else s | [] => [] end) s = [] <-> Forall (fun c => isspace U c = true) s).
  { induction s as [|c s IH]; [split; [constructor|reflexivity]|]. destruct (isspace U c) eqn:E.
    - rewrite IH. split; [intros H; now constructor|intros H; now inversion H].
    - split; [discriminate|]. intros H. inversion H. congruence. }
  intros s. unfold py_strip. set (go := fix go (s : str) : str := _) in *.
  assert (T : forall v, (exists c, In c v /\ isspace U c = false) -> exists c, In c (go v) /\ isspace U c = false).
  { induction v as [|c r IH]; intros (x & I & N); [destruct I|]. cbn [go]. destruct (isspace U c) eqn:E; [|eauto]. apply IH. destruct I as [->|I]; [congruence|eauto]. }
  assert (NF : forall v, ~ Forall (fun c => isspace U c = true) v -> exists c, In c v /\ isspace U c = false).
  { induction v as [|c r IH]; intros N; [destruct N; constructor|]. destruct (isspace U c) eqn:E; [|exists c; split; [now left|exact E]].
    destruct IH as (x & I & X); [|exists x; split; [now right|exact X]]. intros Q. apply N. now constructor. }
  split.
  - intros H. apply (f_equal (@rev N)) in H. rewrite rev_involutive in H. cbn in H. apply G in H.
    destruct (go s) as [|c r] eqn:E; [now apply G|]. exfalso.
    assert (X : exists c, In c (go s) /\ isspace U c = false).
    { apply T. apply NF. intros Q. apply G in Q. congruence. }
    destruct X as (x & I & X). rewrite E in I. rewrite Forall_forall in H. rewrite H in X; [discriminate|]. now apply in_rev in I.
  - intros H. apply G in H. rewrite H. reflexivity.
Qed.
Lemma shown_spec : forall host h, shown host h <-> h = match py_strip U host with [] => lit "localhost" | _ => host end.
Proof.
  intros host h. unfold shown. rewrite <- strip_blank. destruct (py_strip U host) as [|c r]; split.
  - intros [[_ E]|[N _]]; [exact E|congruence].
  - intros ->. now left.
  - intros [[E _]|[_ E]]; [discriminate E|exact E].
  - intros ->. right. split; [discriminate|reflexivity].
Qed.
Definition rev_shown (rev : option str) (default url : str) : Prop :=
  ((rev = None \/ exists u, rev = Some u /\ Forall (fun c => isspace U c = true) u) /\ url = default) \/
  (rev = Some url /\ ~ Forall (fun c => isspace U c = true) url).
Lemma rev_shown_spec : forall rev host port h url, shown host h ->
  rev_shown rev (lit "http://" ++ h ++ lit ":" ++ port ++ lit "/AttributeAuthority/jsonwsp/revocation_list") url <-> url = make_rev_url U rev host port.
Proof.
  intros rev host port h url S. apply shown_spec in S. unfold rev_shown, make_rev_url, service_base. subst h. cbv zeta. rewrite <- !app_assoc.
  destruct rev as [u|].
  - destruct (py_strip U u) as [|c r] eqn:E.
    + apply strip_blank in E. split; [intros [[_ H]|[[= ->] N]]; [exact H|contradiction]|]. intros ->. left. split; [right; eauto|reflexivity].
    + assert (N : ~ Forall (fun c => isspace U c = true) u) by (intros Q; apply strip_blank in Q; congruence).
      split; [intros [[[H|(v & [= <-] & H)] _]|[[= ->] _]]; [discriminate H|contradiction|reflexivity]|]. intros ->. right. auto.
  - split; [intros [[_ H]|[H _]]; [exact H|discriminate H]|]. intros ->. left. auto.
Qed.

(** The authority starts exactly if all this holds, and then it is as described. *)
Theorem C91_starts : decimals_ok U -> forall F w files w' b, boot F w files = (w', TOk b) <->
  exists host port h rev length file pass data,
    opt_is F s_aauth (lit "AAUTH_ID") (bo_name K b) /\ opt_is F s_aauth (lit "A_URI") (bo_uri K b) /\
    opt_is F (lit "LADON") (lit "SERVICE_HOST") (Some host) /\ opt_is F (lit "LADON") (lit "SERVICE_PORT") (Some port) /\ shown host h /\
    bo_url K b = lit "http://" ++ h ++ lit ":" ++ port ++ lit "/AttributeAuthority/jsonwsp/" /\
    opt_is F s_aauth (lit "REV_URI") rev /\
    rev_shown rev (lit "http://" ++ h ++ lit ":" ++ port ++ lit "/AttributeAuthority/jsonwsp/revocation_list") (bo_rev_url K b) /\
    opt_is F s_aauth (lit "PASS_PEPPER") (bo_pepper K b) /\
    opt_is F s_aauth (lit "AC_EXPIRE_LENGTH") (Some length) /\ int_literal U 10 length (bo_length K b) /\
    opt_is F s_aauth (lit "KEY_FILE") (Some file) /\ opt_is F s_aauth (lit "KEY_PASS") pass /\
    assoc file files = Some data /\ unseal data pass = Ok (bo_key K b) /\
    get_engine U create_ok F w s_aauth = (w', DOk (bo_engine K b)).
Proof.
  intros DO F w files w' b. unfold Tools.boot, boot_res. split.
  - destruct (tconf U F (lit "AAUTH_ID") s_aauth) as [name|] eqn:E1; cbn [tbind]; [|discriminate].
    destruct (tconf U F (lit "A_URI") s_aauth) as [uri|] eqn:E2; cbn [tbind]; [|discriminate].
    destruct (tconf U F (lit "REV_URI") s_aauth) as [rev|] eqn:E3; cbn [tbind]; [|discriminate].
    destruct (tconf U F (lit "SERVICE_HOST") (lit "LADON")) as [[host|]|] eqn:E4; cbn [tbind tneed]; try discriminate.
    2:{ destruct (tconf U F (lit "SERVICE_PORT") (lit "LADON")); discriminate. }
    destruct (tconf U F (lit "SERVICE_PORT") (lit "LADON")) as [[port|]|] eqn:E5; cbn [tbind tneed]; try discriminate.
    destruct (tconf U F (lit "PASS_PEPPER") s_aauth) as [pepper|] eqn:E6; cbn [tbind]; [|discriminate].
    destruct (tconf U F (lit "AC_EXPIRE_LENGTH") s_aauth) as [[length|]|] eqn:E7; cbn [tbind tneed]; try discriminate.
    destruct (int_base U 10 length) as [len|] eqn:E8; cbn [tbind of_res]; [|discriminate].
    destruct (tconf U F (lit "KEY_FILE") s_aauth) as [[file|]|] eqn:E9; cbn [tbind tneed]; try discriminate.
    2:{ destruct (tconf U F (lit "KEY_PASS") s_aauth); discriminate. }
    destruct (tconf U F (lit "KEY_PASS") s_aauth) as [pass|] eqn:E10; cbn [tbind tneed]; [|discriminate].
    destruct (assoc file files) as [data|] eqn:E11; cbn [tbind]; [|discriminate].
    destruct (unseal data pass) as [key|] eqn:E12; cbn [tbind of_res]; [|discriminate].
    destruct (get_engine U create_ok F w s_aauth) as [w1 [o|x]] eqn:G; cbn [tbind of_dres]; [|discriminate].
    intros H. assert (H1 : w1 = w') by congruence. apply (f_equal snd) in H. cbn [snd] in H. injection H as <-. subst w1.
    apply tconf_spec in E1, E2, E3, E4, E5, E6, E7, E9, E10. apply int_base_spec in E8; [|exact DO].
    exists host, port, (match py_strip U host with [] => lit "localhost" | _ => host end), rev, length, file, pass, data.
    assert (SH : shown host (match py_strip U host with [] => lit "localhost" | _ => host end)) by now apply shown_spec.
    cbn [bo_name bo_uri bo_url bo_rev_url bo_pepper bo_length bo_key bo_engine].
    repeat (split; [assumption|]). split; [unfold make_url, service_base; now rewrite <- !app_assoc|]. split; [assumption|]. split; [exact (proj2 (rev_shown_spec rev host port _ _ SH) eq_refl)|]. auto 10.
  - intros (host & port & h & rev & length & file & pass & data & E1 & E2 & E4 & E5 & SH & EU & E3 & RS & E6 & E7 & E8 & E9 & E10 & E11 & E12 & G).
    apply tconf_spec in E1, E2, E3, E4, E5, E6, E7, E9, E10. apply int_base_spec in E8; [|exact DO]. apply (rev_shown_spec rev host port h _ SH) in RS. apply shown_spec in SH.
    rewrite E1, E2, E3, E4, E5, E6, E7. cbn [tbind tneed]. rewrite E8. cbn [tbind of_res]. rewrite E9, E10. cbn [tbind tneed]. rewrite E11. cbn [tbind]. rewrite E12. cbn [tbind of_res].
    rewrite G. cbn [tbind of_dres]. destruct b as [bn bu br bl bp bln bk be]. cbn [bo_name bo_uri bo_url bo_rev_url bo_pepper bo_length bo_key bo_engine] in *.
    subst. unfold make_url, service_base. now rewrite <- !app_assoc.
Qed.
(** After genkey the authority starts whenever it did before, and in any case with the new
    key; all else is as before. *)
Theorem C91_new_key : decimals_ok U -> (forall k p d, seal k p = Ok d -> unseal d p = Ok k) ->
  forall F key argv t t', means U argv CmdGenKey -> main F key argv t = (t', TOk tt) ->
  (forall w w' b, boot F w (t_files t') = (w', TOk b) -> bo_key K b = key) /\
  (forall w w' b, boot F w (t_files t) = (w', TOk b) ->
     boot F w (t_files t') = (w', TOk (Booted K (bo_name K b) (bo_uri K b) (bo_rev_url K b) (bo_url K b) (bo_pepper K b) (bo_length K b) key (bo_engine K b)))).
Proof.
  intros DO LAW F key argv t t' M H. unfold Tools.main in H. apply C90_commands in M. rewrite M in H. cbn [run_command] in H.
  destruct (tconf U F (lit "KEY_FILE") s_aauth) as [f|e] eqn:A; cbn [tbind] in H; [|discriminate H].
  destruct (tconf U F (lit "KEY_PASS") s_aauth) as [p|e] eqn:B; cbn [tbind] in H; [|discriminate H].
  unfold gen_aauth_key in H. destruct (seal key p) as [data|e] eqn:S; [|discriminate H]. destruct f as [f|]; [|discriminate H]. destruct (can_write f); [|discriminate H].
  injection H as <-. cbn [t_files]. apply tconf_spec in A, B. apply LAW in S.
  assert (X : forall g q, opt_is F s_aauth (lit "KEY_FILE") (Some g) -> opt_is F s_aauth (lit "KEY_PASS") q -> g = f /\ q = p).
  { unfold DatabaseProps.opt_is in *. intros g q G Q. rewrite A in G. rewrite B in Q. split; congruence. }
  split; intros w w' b H; apply (C91_starts DO) in H; destruct H as (host & port & h & rev & length & file & pass & data' & E1 & E2 & E4 & E5 & SH & EU & E3 & RS & E6 & E7 & E8 & E9 & E10 & E11 & E12 & G);
    destruct (X _ _ E9 E10) as [-> ->].
  - rewrite assoc_set, str_eqb_refl in E11. injection E11 as <-. congruence.
  - apply (C91_starts DO). exists host, port, h, rev, length, f, p, data. cbn [bo_name bo_uri bo_url bo_rev_url bo_pepper bo_length bo_key bo_engine].
    repeat (split; [assumption|]). split; [now rewrite assoc_set, str_eqb_refl|]. auto.
Qed.
(** The policy authority; its name and uid may be missing. *)
Theorem C91_policy : forall F w w' b, pa_boot U create_ok F w = (w', TOk b) <->
  exists host port h,
    opt_is F s_pauth (lit "PAUTH_NAME") (pb_name b) /\ opt_is F s_pauth (lit "PAUTH_UID") (pb_uid b) /\
    opt_is F (lit "LADON") (lit "SERVICE_HOST") (Some host) /\ opt_is F (lit "LADON") (lit "SERVICE_PORT") (Some port) /\ shown host h /\
    pb_url b = lit "http://" ++ h ++ lit ":" ++ port ++ lit "/PolicyAuthority/jsonwsp/" /\
    get_engine U create_ok F w s_aauth = (w', DOk (pb_engine b)).
Proof.
  intros F w w' b. unfold pa_boot. split.
  - destruct (tconf U F (lit "PAUTH_NAME") s_pauth) as [name|] eqn:E1; cbn [tbind]; [|discriminate].
    destruct (tconf U F (lit "PAUTH_UID") s_pauth) as [uid|] eqn:E2; cbn [tbind]; [|discriminate].
    destruct (tconf U F (lit "SERVICE_HOST") (lit "LADON")) as [[host|]|] eqn:E4; cbn [tbind tneed]; try discriminate.
    2:{ destruct (tconf U F (lit "SERVICE_PORT") (lit "LADON")); discriminate. }
    destruct (tconf U F (lit "SERVICE_PORT") (lit "LADON")) as [[port|]|] eqn:E5; cbn [tbind tneed]; try discriminate.
    destruct (get_engine U create_ok F w s_aauth) as [w1 [o|x]] eqn:G; cbn [tbind of_dres]; [|discriminate].
    intros H. assert (H1 : w1 = w') by congruence. apply (f_equal snd) in H. cbn [snd] in H. injection H as <-. subst w1. apply tconf_spec in E1, E2, E4, E5.
    exists host, port, (match py_strip U host with [] => lit "localhost" | _ => host end). cbn [pb_name pb_uid pb_url pb_engine].
    repeat (split; [assumption|]). split; [now apply shown_spec|]. split; [unfold service_base; now rewrite <- !app_assoc|reflexivity].
  - intros (host & port & h & E1 & E2 & E4 & E5 & SH & EU & G). apply tconf_spec in E1, E2, E4, E5. apply shown_spec in SH.
    rewrite E1, E2, E4, E5. cbn [tbind tneed]. rewrite G. cbn [tbind of_dres]. destruct b as [bn bu bl be]. cbn [pb_name pb_uid pb_url pb_engine] in *.
    subst. unfold service_base. now rewrite <- !app_assoc.
Qed.

(** ** C89: the password tool *)

Section Passwords.
Variable checkpw : bytes -> bytes -> res bool.

(** A hash printed for the attribute authority lets a user with that hash in with that
    password, at the authority started with the same configuration. *)
Theorem C89_accepted : decimals_ok U -> (forall x h, hashpw x = Ok h -> checkpw x h = Ok true) ->
  forall F key argv service pw t t' w files w' b au,
  means U argv (CmdPassword service pw) -> py_upper U service = s_aauth -> main F key argv t = (t', TOk tt) ->
  boot F w files = (w', TOk b) -> authority_of K pem bits b = Some au ->
  exists h, t_hashes t' = t_hashes t ++ [(pw, h)] /\
    forall d q user name, In user (d_users d) -> us_password user = h -> us_name user = py_lower U name ->
      rq_type q = 0 -> rq_username q = Some name -> rq_password q = Some pw -> authenticated K U checkpw au d q user name.
Proof.
  intros DO LAW F key argv service pw t t' w files w' b au M UP H BO AU. unfold Tools.main in H. apply C90_commands in M. rewrite M in H. cbn [run_command] in H.
  unfold password_hash in H. destruct (tconf U F (lit "PASS_PEPPER") (py_upper U service)) as [pepper|] eqn:E; cbn [tbind] in H; [|discriminate H].
  destruct (utf8_encode (pw ++ str_of_opt pepper)) as [x|] eqn:X; cbn [of_res tbind] in H; [|discriminate H].
  destruct (hashpw x) as [hb|] eqn:HB; cbn [of_res tbind] in H; [|discriminate H]. destruct (utf8_decode hb) as [h|] eqn:D; cbn [of_res] in H; [|discriminate H].
  injection H as <-. exists h. split; [reflexivity|]. intros d q user name IU EP EN T N P.
  apply (C91_starts DO) in BO. destruct BO as (host & port & hh & rev & length & file & pass & data & _ & _ & _ & _ & _ & _ & _ & _ & E6 & _).
  apply tconf_spec in E. unfold DatabaseProps.opt_is in *. rewrite UP in E. rewrite E in E6. injection E6 as E6.
  assert (PE : au_pepper au = pepper).
  { unfold authority_of in AU. destruct (bo_name K b), (bo_uri K b); try discriminate AU. injection AU as <-. cbn [au_pepper]. congruence. }
  split; [exact T|]. split; [exact N|]. split; [exact IU|]. split; [exact EN|]. exists x, hb. rewrite P, PE, EP.
  split; [destruct pepper; exact X|]. split; [|now apply LAW]. apply (utf8_decode_sound (List.length hb)); [lia|exact D].
Qed.
(** bcrypt takes 72 bytes into account.  If so, with a longer password the pepper has no
    effect: who is let in is the same for any two peppers. *)
Theorem C89_long : (forall x y h, firstn 72 x = firstn 72 y -> checkpw x h = checkpw y h) ->
  forall (au au' : authority K) d q pw x user name, rq_password q = Some pw -> utf8_encode pw = Ok x -> (72 <= List.length x)%nat ->
  (forall a, a = au \/ a = au' -> exists y, utf8_encode (match au_pepper a with Some p => p | None => lit "None" end) = Ok y) ->
  authenticated K U checkpw au d q user name -> authenticated K U checkpw au' d q user name.
Proof.
  intros LAW au au' d q pw x user name P X L EN (T & N & I & E & y & hash & Y & HH & C). split; [exact T|]. split; [exact N|]. split; [exact I|]. split; [exact E|].
  rewrite P in *. destruct (EN au (or_introl eq_refl)) as (p1 & P1). destruct (EN au' (or_intror eq_refl)) as (p2 & P2).
  assert (APP : forall a b x y, utf8_encode a = Ok x -> utf8_encode b = Ok y -> utf8_encode (a ++ b) = Ok (x ++ y)).
  { clear. induction a as [|c a IH]; intros b x y A B; cbn [utf8_encode app] in *.
    - apply Ok_inj in A. subst. exact B.
    - destruct (utf8_char c) as [u|]; cbn [bind] in *; [|discriminate]. destruct (utf8_encode a) as [v|]; cbn [bind] in *; [|discriminate]. apply Ok_inj in A. subst.
      rewrite (IH b v y eq_refl B). cbn [bind]. now rewrite app_assoc. }
  pose proof (APP _ _ _ _ X P1) as Q1. pose proof (APP _ _ _ _ X P2) as Q2. pose proof (eq_trans (eq_sym Y) Q1) as EY. apply Ok_inj in EY. subst y.
  exists (x ++ p2), hash. split; [exact Q2|]. split; [exact HH|]. rewrite <- C. apply LAW. rewrite !firstn_app.
  replace (72 - List.length x)%nat with 0%nat by lia. reflexivity.
Qed.
(** Requests look up the name in lower case, so a user stored with a capital letter is as good
    as not there. *)
Theorem C89_capital : (forall s c, is_ascii s = false -> In c (u_lower U s) -> up c = false) ->
  forall au order dir atts l1 user l2 assigns q h c, In c (us_name user) -> up c = true ->
  attribute_request K U au checkpw order dir (ADB atts (l1 ++ user :: l2) assigns) q h = attribute_request K U au checkpw order dir (ADB atts (l1 ++ l2) assigns) q h.
Proof.
  intros LAW au order dir atts l1 user l2 assigns q h c I UP.
  assert (NL : forall n, py_lower U n <> us_name user).
  { intros n E. rewrite <- E in I. unfold py_lower in I. destruct (is_ascii n) eqn:A; [|rewrite (LAW n c A I) in UP; discriminate UP].
    apply in_map_iff in I as (x & <- & _). unfold lower_c in UP. destruct (PyBase.up x) eqn:Q; [|congruence].
    unfold PyBase.up in *. apply andb_true_iff in Q as [Q1 Q2]. apply andb_true_iff in UP as [U1 U2]. apply N.leb_le in Q1, Q2, U1, U2. lia. }
  assert (FI : forall n, find (fun u => str_eqb (us_name u) (py_lower U n)) (l1 ++ user :: l2) = find (fun u => str_eqb (us_name u) (py_lower U n)) (l1 ++ l2)).
  { intros n. induction l1 as [|u l IH]; cbn [app find].
    - destruct (str_eqb (us_name user) (py_lower U n)) eqn:Q; [|reflexivity]. apply str_eqb_eq in Q. now destruct (NL n).
    - destruct (str_eqb (us_name u) (py_lower U n)); [reflexivity|exact IH]. }
  assert (AU : authenticate K U au checkpw (ADB atts (l1 ++ user :: l2) assigns) q = authenticate K U au checkpw (ADB atts (l1 ++ l2) assigns) q).
  { unfold authenticate. cbn [d_users]. destruct (negb _); [reflexivity|]. destruct (rq_username q) as [n|]; [|reflexivity]. now rewrite FI. }
  unfold attribute_request, request_res, user_atts. rewrite AU. reflexivity.
Qed.
End Passwords.

(** ** C92: what an authority says about itself *)

Notation info := (info K pem bits).
Theorem C92_info : forall (b : booted K) exports i, info b exports = Ok i <->
  (exists addr, export (lit "REMOTE_ADDR") exports = Some addr) /\ bo_name K b = Some (in_name i) /\ bo_uri K b = Some (in_uri i) /\
  in_rev_url i = bo_rev_url K b /\ in_key i = pem (bo_key K b) /\ in_size i = bits (bo_key K b) /\
  in_aa_version i = 1 /\ in_ac_version i = 1 /\ in_credentials i = [(lit "USER_PASS", 0)] /\
  in_cipher i = lit "RSA" /\ in_hash i = lit "SHA256" /\ in_sig i = lit "RSASSA-PKCS1-v1_5".
Proof.
  intros b exports i. unfold Tools.info. destruct (export (lit "REMOTE_ADDR") exports) as [addr|].
  - destruct (bo_name K b) as [n|]; [|split; [discriminate|intros (_ & H & _); discriminate H]].
    destruct (bo_uri K b) as [u|]; [|split; [discriminate|intros (_ & _ & H & _); discriminate H]].
    split; [intros H; apply Ok_inj in H; subst i; cbn [in_name in_uri in_rev_url in_key in_size in_aa_version in_ac_version in_credentials in_cipher in_hash in_sig]; repeat split; eauto|].
    intros (_ & [= ->] & [= ->] & H). destruct i as [x1 x2 x3 x4 x5 x6 x7 x8 x9 x10 x11]. cbn [in_name in_uri in_rev_url in_key in_size in_aa_version in_ac_version in_credentials in_cipher in_hash in_sig] in *.
    destruct H as (-> & -> & -> & -> & -> & -> & -> & -> & ->). reflexivity.
  - split; [discriminate|intros ((addr & H) & _); discriminate H].
Qed.
(** Every certificate the authority issues is as it says: the issuer has the name, URI and key
    told, and the algorithm is the cipher with the size; the version, the type of credentials
    and the place of the revocation list are those told. *)
Theorem C92_matches : forall b au exports i checkpw order dir d q h dir' r, authority_of K pem bits b = Some au -> info b exports = Ok i ->
  attribute_request K U au checkpw order dir d q h = (dir', Ok r) ->
  exists url, c_issuer (is_cert r) = Issuer (in_key i) (in_cipher i ++ lit "[" ++ str_of_Z (in_size i) ++ lit "]") (in_uri i) (Some (in_name i)) (Some url) /\
    url = bo_url K b /\ i_version (c_info (is_cert r)) = in_ac_version i /\ is_version r = in_ac_version i /\
    rv_url (c_rev (is_cert r)) = Some (in_rev_url i) /\
    (exists name, In (name, rq_type q) (in_credentials i)) /\
    exists name, ho_uid (c_holder (is_cert r)) = in_uri i ++ lit "/user/" ++ name /\ rq_username q = Some name.
Proof.
  intros b au exports i checkpw order dir d q h dir' r AU IN AR. apply C92_info in IN as (_ & N & UR & RV & KE & SZ & _ & AV & CR & CI & _).
  unfold authority_of in AU. rewrite N, UR in AU. injection AU as <-.
  pose proof (C52_content K U _ checkpw order dir d q h dir' r AR) as (name & cons & us & UN & IS & HU & _ & _ & CF & _ & _ & _ & _ & _ & _ & _ & IV & _).
  exists (bo_url K b). cbn [au_pub au_bits au_uri au_name au_url] in *. rewrite IS, KE, SZ, CI, CF, AV, IV, RV, CR. split; [reflexivity|].
  split; [reflexivity|]. split; [reflexivity|]. split; [reflexivity|]. split; [|split].
  - apply answer_inv in AR as [AR _]. apply request_inv in AR as (addr & user & nm & ids & names & sel & c & c' & bb & _ & A & I & NN & S & C & X & ->).
    apply cert_inv in C as (cons' & us' & C1 & C2 & ->). apply sign_export in X as (w0 & s & _ & _ & -> & _); [|discriminate]. reflexivity.
  - apply answer_inv in AR as [AR _]. apply request_inv in AR as (addr & user & nm & ids & names & sel & c & c' & bb & _ & A & _).
    apply authenticate_sound in A as (T & _). rewrite T. exists (lit "USER_PASS"). now left.
  - eauto.
Qed.
(** info works for every caller exactly if the authority can issue certificates at all. *)
Theorem C92_available : forall b, (exists au, authority_of K pem bits b = Some au) <->
  forall exports addr, export (lit "REMOTE_ADDR") exports = Some addr -> exists i, info b exports = Ok i.
Proof.
  intros b. unfold authority_of, Tools.info. split.
  - intros (au & H) exports addr E. rewrite E. destruct (bo_name K b), (bo_uri K b); try discriminate H. eauto.
  - intros H. destruct (H [(lit "REMOTE_ADDR", [])] [] eq_refl) as (i & E). cbn in E. destruct (bo_name K b); [|discriminate E]. destruct (bo_uri K b); [|discriminate E]. eauto.
Qed.

(** ** C94: which services run and where *)

Theorem C94_enabled : forall F,
  ((exists l, service_modules U F = TOk l) <-> forall s, s = lit "aauth" \/ s = lit "pauth" -> exists v, opt_is F s (lit "SERVICE_ENABLED") (Some v)) /\
  (forall l, service_modules U F = TOk l -> NoDup l /\
     forall s, In s l <-> (s = lit "aauth" \/ s = lit "pauth") /\ exists v, opt_is F s (lit "SERVICE_ENABLED") (Some v) /\ py_upper U v = lit "TRUE").
Proof.
  intros F. unfold service_modules. cbn [enabled]. split.
  - split.
    + intros (l & H). destruct (tconf U F (lit "SERVICE_ENABLED") (lit "aauth")) as [[v|]|] eqn:A; cbn [tbind tneed] in H; try discriminate H.
      destruct (tconf U F (lit "SERVICE_ENABLED") (lit "pauth")) as [[v'|]|] eqn:B; cbn [tbind tneed] in H; try discriminate H.
      apply tconf_spec in A, B. intros s [-> | ->]; eauto.
    + intros H. destruct (H _ (or_introl eq_refl)) as (v & A). destruct (H _ (or_intror eq_refl)) as (v' & B). apply tconf_spec in A, B.
      rewrite A. cbn [tbind tneed]. rewrite B. cbn [tbind tneed]. eauto.
  - intros l H. destruct (tconf U F (lit "SERVICE_ENABLED") (lit "aauth")) as [[v|]|] eqn:A; cbn [tbind tneed] in H; try discriminate H.
    destruct (tconf U F (lit "SERVICE_ENABLED") (lit "pauth")) as [[v'|]|] eqn:B; cbn [tbind tneed] in H; try discriminate H.
    apply tconf_spec in A, B. injection H as <-.
    assert (X : forall s y, s = lit "aauth" \/ s = lit "pauth" -> opt_is F s (lit "SERVICE_ENABLED") (Some y) -> (s = lit "aauth" /\ y = v) \/ (s = lit "pauth" /\ y = v')).
    { unfold DatabaseProps.opt_is in *. intros s y [-> | ->] Q; [left|right]; split; congruence. }
    assert (NE : lit "aauth" <> lit "pauth") by discriminate.
    destruct (str_eqb (py_upper U v) (lit "TRUE")) eqn:V, (str_eqb (py_upper U v') (lit "TRUE")) eqn:V'; (split; [repeat constructor; cbn [In]; intuition congruence|]);
      intros s; cbn [In]; (split; [intros I; repeat destruct I as [<-|I]; try contradiction; (split; [tauto|]); eqs; eauto|]);
      intros (S & y & Q & T); destruct (X s y S Q) as [[-> ->]|[-> ->]]; rewrite T in *; try (rewrite str_eqb_refl in *); try discriminate; auto.
Qed.
(** The server listens where the authorities say they are: their URLs have the host printed
    and the text of the port, a literal for the number listened on. *)
Theorem C94_where : decimals_ok U -> forall F host port h w files w' b, serve_at U F = TOk (host, port, h) -> boot F w files = (w', TOk b) ->
  exists text, int_literal U 10 text port /\ shown host h /\ bo_url K b = lit "http://" ++ h ++ lit ":" ++ text ++ lit "/AttributeAuthority/jsonwsp/" /\
    forall w1 w2 p, pa_boot U create_ok F w1 = (w2, TOk p) -> pb_url p = lit "http://" ++ h ++ lit ":" ++ text ++ lit "/PolicyAuthority/jsonwsp/".
Proof.
  intros DO F host port h w files w' b S BO. unfold serve_at in S.
  destruct (tconf U F (lit "SERVICE_PORT") (lit "LADON")) as [[text|]|] eqn:A; cbn [tbind tneed] in S; try discriminate S.
  destruct (int_base U 10 text) as [z|] eqn:Z; cbn [tbind of_res] in S; [|discriminate S].
  destruct (tconf U F (lit "SERVICE_HOST") (lit "LADON")) as [[hs|]|] eqn:B; cbn [tbind tneed] in S; try discriminate S.
  assert (S1 : hs = host) by congruence. assert (S2 : z = port) by congruence. assert (S3 : h = match py_strip U hs with [] => lit "localhost" | _ => hs end) by congruence.
  clear S. subst hs z. apply int_base_spec in Z; [|exact DO]. apply shown_spec in S3. apply tconf_spec in A, B.
  assert (XH : forall x y, opt_is F (lit "LADON") (lit "SERVICE_HOST") (Some x) -> shown x y -> y = h).
  { unfold DatabaseProps.opt_is in *. intros x y X Y. assert (x = host) by congruence. subst x. apply shown_spec in Y, S3. congruence. }
  assert (XP : forall x, opt_is F (lit "LADON") (lit "SERVICE_PORT") (Some x) -> x = text) by (unfold DatabaseProps.opt_is in *; intros x X; congruence).
  exists text. split; [exact Z|]. split; [exact S3|]. split.
  - apply (C91_starts DO) in BO. destruct BO as (ho & po & hh & rev & length & file & pass & data & _ & _ & E4 & E5 & SH & EU & _). rewrite EU, (XH _ _ E4 SH), (XP _ E5). reflexivity.
  - intros w1 w2 p PB. apply C91_policy in PB as (ho & po & hh & _ & _ & E4 & E5 & SH & EU & _). rewrite EU, (XH _ _ E4 SH), (XP _ E5). reflexivity.
Qed.
End WithKeys.

Print Assumptions C90_commands.
Print Assumptions C90_usage.
Print Assumptions C90_effects.
Print Assumptions C90_capitals.
Print Assumptions C90_setup.
Print Assumptions C91_starts.
Print Assumptions C91_new_key.
Print Assumptions C91_policy.
Print Assumptions C89_accepted.
Print Assumptions C89_long.
Print Assumptions C89_capital.
Print Assumptions C92_info.
Print Assumptions C92_matches.
Print Assumptions C92_available.
Print Assumptions C94_enabled.
Print Assumptions C94_where.

(** ** Examples and refutations *)

Definition ex_seal (k : N) (p : option str) : res bytes := Ok (k :: str_of_opt p).
Definition ex_unseal (d : bytes) (p : option str) : res N :=
  match d with k :: r => if bytes_eqb r (str_of_opt p) then Ok k else Err EValue | [] => Err EValue end.
Definition ex_main (F : conf_file) (key : N) (argv : list string) (t : tools) : tools * tres unit :=
  main U0 all_ok checked toy ex_seal (fun b => Ok b) all_ok F key (map lit argv) t.
Definition ex_boot (F : conf_file) (w : world) (files : list (str * bytes)) : world * tres (booted toy) := boot U0 all_ok toy ex_unseal F w files.
Definition ex_info (b : booted toy) : res aa_info := info toy (fun k => [k]) (fun _ => 2048) b [(lit "REMOTE_ADDR", lit "10.0.0.1")].
Definition again (t : tools) : tools := with_world (started (w_dbs (t_world t))) t.

(** The laws assumed of keys and hashes hold here. *)
Example ex_laws : (forall k p d, ex_seal k p = Ok d -> ex_unseal d p = Ok k) /\
  (forall x h : bytes, Ok x = Ok h -> ex_checkpw x h = Ok true) /\ decimals_ok U0.
Proof.
  split; [|split].
  - intros k p d H. apply Ok_inj in H. subst d. cbn [ex_unseal]. now rewrite (proj2 (bytes_eqb_eq _ _) eq_refl).
  - intros x h H. apply Ok_inj in H. subst h. unfold ex_checkpw. now rewrite (proj2 (bytes_eqb_eq _ _) eq_refl).
  - intros c d H. discriminate H.
Qed.
(** The way from an empty machine to a running authority, with the files of the repository. *)
Example ex_session :
  let t0 := ToolState (started []) [] [] in
  let '(t1, r1) := ex_main shipped_services 7 ["Build"; "all"]%string t0 in
  let '(t2, r2) := ex_main shipped_services 7 ["pop"; "ALL"]%string (again t1) in
  let '(t3, r3) := ex_main shipped_services 7 ["genkey"; "AAuth"]%string (again t2) in
  let '(t4, r4) := ex_main shipped_services 7 ["pass"; "aauth"; "secret"]%string (again t3) in
  let '(w, r5) := ex_boot shipped_services (started (w_dbs (t_world t4))) (t_files t4) in
  r1 = TOk tt /\ r2 = TOk tt /\ r3 = TOk tt /\ r4 = TOk tt /\
  db_at w (At shipped_url) = DB [BAAuth; BPAuth] (test_aauth ++ test_pauth) /\
  t_hashes t4 = [(lit "secret", lit "secretPUTYOURPEPPERHERE")] /\
  snd (ex_boot shipped_services (started []) []) = TErr TOpen /\
  match r5 with
  | TOk b => bo_key toy b = 7%N /\ bo_length toy b = 3600 /\ bo_url toy b = lit "http://localhost:8888/AttributeAuthority/jsonwsp/" /\
      match ex_info b with Ok i => in_uri i = lit "hgabac://localhost:8888" /\ in_rev_url i = lit "http://localhost:8888/AttributeAuthority/jsonwsp/revocation_list" | Err _ => False end
  | TErr _ => False
  end.
Proof. vm_compute. repeat split. Qed.
Example ex_refused :
  let t := ToolState (started []) [] [] in
  ex_main shipped_services 7 ["build"; "ALL"]%string t = (t, TErr (TDb DUnknown)) /\
  ex_main shipped_services 7 ["genkey"; "pauth"]%string t = (t, TErr TUsage) /\
  ex_main shipped_services 7 []%string t = (t, TErr TUsage) /\
  ex_main shipped_services 7 ["help"; "me"]%string t = (t, TOk tt) /\
  ex_main shipped_services 7 ["genatts"; "many"]%string t = (t, TErr (TPy EValue)) /\
  ex_main no_file 7 ["genkey"; "aauth"]%string t = (t, TErr (TPy EType)) /\
  snd (ex_boot no_file (started []) []) = TErr (TPy EType).
Proof. vm_compute. repeat split. Qed.
Example ex_database : database U0 all_ok shipped_services BAAuth shipped_url /\ database U0 all_ok shipped_services BPAuth shipped_url.
Proof.
  assert (H : forall b, database U0 all_ok shipped_services b shipped_url); [|split; apply H]. intros b.
  exists (DbOpts (Some (lit "hgaa")) (Some (lit "apps")) (Some (lit "PUTYOURPASSWORDHERE")) (Some (lit "3306")) (Some (lit "localhost"))), (lit "mysql").
  split; [destruct b; unfold db_options; repeat (split; [vm_compute; reflexivity|]); eexists; vm_compute; reflexivity|].
  split; [apply (uo_mysql U0 (DbOpts (Some (lit "hgaa")) (Some (lit "apps")) (Some (lit "PUTYOURPASSWORDHERE")) (Some (lit "3306")) (Some (lit "localhost"))) (lit "mysql")); vm_compute; reflexivity|].
  split; [reflexivity|discriminate].
Qed.

(** A hash printed for any service is good at the attribute authority: not so, it depends on
    the pepper of the section. *)
Definition two_peppers : conf_file := {|
  f_default := f_default shipped_services;
  f_sections := [(lit "AAUTH", ini [("pass_pepper", "own"); ("ac_expire_length", "60"); ("key_file", "k"); ("aauth_id", "a"); ("a_uri", "u")]%string)] |}.
Theorem C89_section_refuted : exists F t t' w b au h user,
  ex_main F 7 ["password"; "hgaa"; "secret"]%string t = (t', TOk tt) /\ t_hashes t' = [(lit "secret", h)] /\
  ex_boot F (started []) [(lit "k", 7%N :: lit "None")] = (w, TOk b) /\ authority_of toy (fun k => [k]) (fun _ => 2048) b = Some au /\
  user = UserRow 1 (lit "alice") h /\
  ~ authenticated toy U0 ex_checkpw au (ADB [] [user] []) (ex_request (lit "alice") (lit "secret") [] [] (lit "10.0.0.1")) user (lit "alice").
Proof.
  exists two_peppers, (ToolState (started []) [] []).
  destruct (ex_main two_peppers 7 ["password"; "hgaa"; "secret"]%string (ToolState (started []) [] [])) as [t' r] eqn:M. exists t'.
  destruct (ex_boot two_peppers (started []) [(lit "k", 7%N :: lit "None")]) as [w [b|x]] eqn:B; [|vm_compute in B; discriminate B]. exists w, b.
  destruct (authority_of toy (fun k => [k]) (fun _ => 2048) b) as [au|] eqn:A; [|vm_compute in B; injection B as <- <-; vm_compute in A; discriminate A]. exists au.
  exists (lit "secretPUTYOURPEPPERHERE"), (UserRow 1 (lit "alice") (lit "secretPUTYOURPEPPERHERE")).
  vm_compute in M. injection M as <- <-. vm_compute in B. injection B as <- <-. vm_compute in A. injection A as <-.
  split; [reflexivity|]. split; [vm_compute; reflexivity|]. split; [reflexivity|]. split; [reflexivity|]. split; [reflexivity|].
  intros (_ & _ & _ & _ & pw & hash & P & H & C). vm_compute in P, H. injection P as <-. injection H as <-. vm_compute in C. discriminate C.
Qed.
Print Assumptions C89_section_refuted.
(** The place of the revocation list is that in services.ini: not so if it is called REV_URL,
    as in the file of the repository. *)
Definition with_rev_url : conf_file := {|
  f_default := f_default shipped_services;
  f_sections := [(lit "AAUTH", ini [("rev_url", "http://lists.example/"); ("ac_expire_length", "60"); ("key_file", "k"); ("aauth_id", "a"); ("a_uri", "u")]%string)] |}.
Theorem C91_rev_url_refuted : exists F files w b url, opt_is U0 F s_aauth (lit "REV_URL") (Some url) /\ url <> [] /\
  ex_boot F (started []) files = (w, TOk b) /\ bo_rev_url toy b <> url.
Proof.
  exists with_rev_url, [(lit "k", 7%N :: lit "None")]. destruct (ex_boot with_rev_url (started []) [(lit "k", 7%N :: lit "None")]) as [w [b|x]] eqn:B; [|vm_compute in B; discriminate B].
  exists w, b, (lit "http://lists.example/"). vm_compute in B. injection B as <- <-. split; [vm_compute; reflexivity|]. split; [discriminate|]. split; [reflexivity|]. discriminate.
Qed.
Print Assumptions C91_rev_url_refuted.
(** The URLs contain the number of the port: not so, they contain its text. *)
Definition odd_port : conf_file := {|
  f_default := f_default shipped_services;
  f_sections := [(lit "LADON", ini [("service_port", "08_888"); ("service_enabled", "yes")]%string); (lit "PAUTH", ini [("service_enabled", "yes")]%string)] |}.
Theorem C94_port_refuted : exists F host port h w b, serve_at U0 F = TOk (host, port, h) /\ pa_boot U0 all_ok F (started []) = (w, TOk b) /\
  pb_url b <> lit "http://" ++ h ++ lit ":" ++ str_of_Z port ++ lit "/PolicyAuthority/jsonwsp/".
Proof.
  exists odd_port. destruct (pa_boot U0 all_ok odd_port (started [])) as [w [b|x]] eqn:B; [|vm_compute in B; discriminate B].
  exists [], 8888, (lit "localhost"), w, b. vm_compute in B. injection B as <- <-. split; [vm_compute; reflexivity|]. split; [reflexivity|]. discriminate.
Qed.
Print Assumptions C94_port_refuted.
(** "yes" does not switch a service on. *)
Example ex_enabled : service_modules U0 odd_port = TOk [lit "aauth"] /\ service_modules U0 shipped_services = TOk [lit "aauth"; lit "pauth"] /\
  service_modules U0 no_file = TOk [lit "aauth"; lit "pauth"] /\ serve_at U0 no_file = TOk ([], 8888, lit "localhost").
Proof. vm_compute. repeat split. Qed.
(** Passwords of 72 bytes and a user stored with a capital letter. *)
Example ex_passwords :
  let check (p h : bytes) := Ok (bytes_eqb (firstn 72 p) (firstn 72 h)) in
  let db := ADB [] [UserRow 1 (lit "bob") (repeat 120%N 72); UserRow 2 (lit "Carol") (lit "secretpepper")] [] in
  let ask name pw := snd (attribute_request toy U0 ex_au check (fun l => l) [] db (ex_request name pw [] [] (lit "10.0.0.1")) ex_chance) in
  (exists r, ask (lit "bob") (repeat 120%N 72) = Ok r) /\ ask (lit "Carol") (lit "secret") = ask (lit "nobody") (lit "secret").
Proof. cbv zeta. split; [eexists; vm_compute; reflexivity|vm_compute; reflexivity]. Qed.
