(** * AAuthLogProps: what the attribute authority records and tells its clients (C114) *)

From Coq Require Import NArith ZArith List Bool String Permutation Lia.
From Verif Require Import PyBase LexProofs PyNum Config ConfigProps Logging LoggingProps Struct AttCert CertSpec CertProofs CertProofs2 CertProofs3 CertProps CertProps2
  Demo Show AAuth AAuthSpec AAuthProofs BytesProofs AAuthLog AAuthLogSpec.
From Verif Require Import AAuthProps AAuthLogProofs.
Import ListNotations.
Open Scope Z_scope.

(** ** Keys of the dictionary of selected attributes *)

Definition keyed (d : list (str * valued)) : Prop := forall k p, In (k, p) d -> k = ar_id (fst p).
Lemma set_keyed : forall d p, keyed d -> keyed (dict_set (ar_id (fst p)) p d).
Proof.
  intros d p H k x I. unfold dict_set in I. match type of I with In _ (if ?b then _ else _) => destruct b end.
  - apply in_map_iff in I as ([j y] & E & I). cbn [fst] in E. destruct (str_eqb j (ar_id (fst p))) eqn:Q.
    + injection E as <- <-. now apply str_eqb_eq in Q.
    + injection E as <- <-. now apply H.
  - apply in_app_iff in I as [I|[E|[]]]; [now apply H|]. injection E as <- <-. reflexivity.
Qed.
Lemma by_keyed : forall rows, keyed (dict_by ar_id rows).
Proof. intros rows. induction rows as [|a rows IH] using rev_ind; [intros k p []|]. rewrite by_snoc. now apply set_keyed. Qed.
Lemma ids_keyed : forall by_id ids acc d, keyed acc -> take_ids by_id ids acc = Ok d -> keyed d.
Proof.
  intros by_id. induction ids as [|i ids IH]; intros acc d H E; cbn [take_ids] in E; [apply Ok_inj in E; now subst|].
  destruct (dict_get i by_id) as [a|]; [|discriminate]. refine (IH _ _ _ E). now apply set_keyed.
Qed.
Lemma names_keyed : forall by_name names acc d, keyed acc -> take_names by_name names acc = Ok d -> keyed d.
Proof.
  intros by_name. induction names as [|i names IH]; intros acc d H E; cbn [take_names] in E; [apply Ok_inj in E; now subst|].
  destruct (dict_get i by_name) as [a|]; [|discriminate]. refine (IH _ _ _ E). destruct (dict_get (ar_id (fst a)) acc); [exact H|now apply set_keyed].
Qed.
Lemma select_keyed : forall name rows ids names l sel, l_select name rows ids names = (l, inl sel) -> keyed sel.
Proof.
  intros name rows ids names l sel H.
  assert (G : forall t, lw_bind (say debug_level t) (fun _ => acc <$ l_take_ids name (dict_by ar_id rows) ids [] ;; l_take_names name (dict_by ar_name rows) names acc) = (l, inl sel) -> keyed sel).
  { intros t E. rewrite say_bind in E. apply lw_inj in E as [_ E].
    destruct (take_ids_log name (dict_by ar_id rows) ids []) as [(d & L & T & _)|(a & i & b & _ & _ & _ & _ & L)].
    - rewrite (bind_inl _ _ _ _ _ _ L) in E. cbn [snd] in E.
      destruct (take_names_log name (dict_by ar_name rows) names d) as [(d' & L' & T' & _)|(a & i & b & _ & _ & _ & _ & L')]; rewrite L' in E; cbn [snd] in E; [|discriminate].
      apply inl_inj in E. subst d'. refine (names_keyed _ _ _ _ _ T'). refine (ids_keyed _ _ _ _ _ T). intros k p [].
    - rewrite (bind_inr _ _ _ _ _ _ L) in E. discriminate. }
  unfold l_select in H. destruct ids as [|i ids]; [destruct names as [|n names]|]; try exact (G _ H).
  rewrite say_bind in H. apply lw_inj in H as [_ H]. apply inl_inj in H. subst sel. apply by_keyed.
Qed.
Lemma keyed_fst : forall d, keyed d -> map fst d = map (fun p => ar_id (fst p)) (map snd d).
Proof. intros d H. rewrite map_map. apply map_ext_in. intros [k p] I. now apply H. Qed.

Lemma wanted_none : forall ids, is_nil (wanted ids) = forallb (fun o => match o with Some s => str_eqb s [] || str_eqb s (lit "*") | None => true end) ids.
Proof.
  induction ids as [|o ids IH]; [reflexivity|]. cbn [wanted flat_map forallb]. rewrite <- IH. unfold wanted.
  destruct o as [s|]; [|reflexivity]. destruct (str_eqb s [] || str_eqb s (lit "*")); reflexivity.
Qed.
Lemma is_nil_app : forall A (a b : list A), is_nil (a ++ b) = is_nil a && is_nil b.
Proof. intros A [|x a] b; reflexivity. Qed.

Section Requests.
Variable K : crypto.
Variable U : unicode.
Variable au : authority K.
Variable checkpw : bytes -> bytes -> res bool.
Variable hashpw : bytes -> bytes -> res bytes.
Variable order : list valued -> list valued.
Variable debug : bool.
Variable sp : spans.

Notation answer := (l_request K U au checkpw hashpw order debug sp).
Notation refusal := (refused K U checkpw hashpw debug sp au).

(** The records change nothing: without them and the texts a request is what [AAuth] says.  With DEBUG
    this needs that hashpw raises exactly when checkpw does. *)
Theorem C114_same : (debug = true -> bcrypt_agrees checkpw hashpw) ->
  forall d q h, forget (answer d q h) = request_res K U au checkpw order d q h.
Proof. intros A d q h. now apply request_same. Qed.

Hypothesis ordered : forall l, Permutation (order l) l.

(** The faults: when there is one, its text and all records. *)
Theorem C114_refused : forall d q h addr t l, NoDup (map us_name (d_users d)) ->
  export (lit "REMOTE_ADDR") (rq_exports q) = Some addr ->
  (answer d q h = (l, inr (Fault t)) <-> refusal d q addr t l).
Proof.
  intros d q h addr t l ND E. split.
  - intros H. destruct (l_authenticate K U au checkpw hashpw debug sp d q addr) as [l0 [[user name]|s]] eqn:A.
    + rewrite (request_logged K U au checkpw hashpw order debug sp d q h addr name user l0 E A) in H. cbv zeta in H.
      pose proof (auth_logged K U au checkpw hashpw debug sp d q addr name user l0 A) as LI.
      destruct (after_login K U au sp name (order (user_atts d (us_id user))) q h) as [la xa] eqn:R.
      pose proof (after_log K U au checkpw hashpw order debug sp ordered d q h name user la xa R) as P.
      cbn [fst snd] in H. apply lw_inj in H as [<- ->]. specialize (P addr _ LI). cbn [app] in P. rewrite <- app_assoc in P. exact P.
    + rewrite (request_stopped K U au checkpw hashpw order debug sp d q h addr l0 s E A) in H. apply lw_inj in H as [<- H]. apply inr_inj in H. subst s.
      exact (auth_inv K U au checkpw hashpw debug sp d q addr l0 _ A).
  - intros H. destruct H as [T|name T N F|name user pw hash hl T N I F CM C HN|name user ids names i l LI I N M|name user ids names i l LI I N AI M].
    + apply (request_stopped K U au checkpw hashpw order debug sp d q h addr _ (Fault (lit "Unsupported credential type.")) E).
      unfold l_authenticate. apply Z.eqb_neq in T. rewrite T. reflexivity.
    + apply (request_stopped K U au checkpw hashpw order debug sp d q h addr _ (Fault (lit "Invalid credentials.")) E).
      unfold l_authenticate. rewrite T, N. cbn [Z.eqb negb]. apply find_no_user in F. rewrite F. reflexivity.
    + apply (request_stopped K U au checkpw hashpw order debug sp d q h addr _ (Fault (lit "Invalid credentials.")) E).
      exact (auth_found K U au checkpw hashpw debug sp d q addr name user pw hash hl false T N (find_user U d user name ND I F) CM C HN).
    + apply (logged_auth K U au checkpw hashpw debug sp d q addr name user l ND) in LI as (l0 & -> & A).
      rewrite (request_logged K U au checkpw hashpw order debug sp d q h addr name user l0 E A). cbv zeta. cbn [app]. rewrite <- app_assoc.
      apply missing_wanted in M as (a & b & W & M & F).
      unfold after_login. rewrite I, N, select_some by (rewrite W; intros Z; destruct a; discriminate).
      destruct (take_ids_log name (dict_by ar_id (order (user_atts d (us_id user)))) (wanted ids) []) as [(acc & _ & _ & X)|(a' & i' & b' & W' & G & F' & _ & L)].
      * exfalso. apply M. apply (get_assigned order ordered). apply X. rewrite W. apply in_elt.
      * assert (Q : a = a' /\ i = i').
        { apply (split_first _ (fun j => exists r v, assigned d (us_id user) r v /\ ar_id r = j) a i b a' i' b'); auto.
          - now rewrite <- W, <- W'.
          - now apply (get_not_assigned order ordered) in G.
          - intros x J. now apply (get_assigned order ordered), F'. }
        destruct Q as [_ <-]. rewrite say_bind, (bind_inr _ _ _ _ _ _ L). reflexivity.
    + apply (logged_auth K U au checkpw hashpw debug sp d q addr name user l ND) in LI as (l0 & -> & A).
      rewrite (request_logged K U au checkpw hashpw order debug sp d q h addr name user l0 E A). cbv zeta. cbn [app]. rewrite <- app_assoc.
      apply missing_wanted in M as (a & b & W & M & F).
      unfold after_login. rewrite I, N, select_some by (rewrite W; intros Z; apply app_eq_nil in Z as [_ Z]; destruct a; discriminate).
      destruct (take_ids_log name (dict_by ar_id (order (user_atts d (us_id user)))) (wanted ids) []) as [(acc & L & _ & _)|(a' & i' & b' & W' & G & F' & _ & _)].
      2: { exfalso. apply (get_not_assigned order ordered) in G. apply G. apply AI. rewrite I. apply wanted_spec. rewrite W'. apply in_elt. }
      destruct (take_names_log name (dict_by ar_name (order (user_atts d (us_id user)))) (wanted names) acc) as [(acc' & _ & _ & X)|(a' & i' & b' & W' & G & F' & _ & L')].
      * exfalso. apply M. apply (get_assigned order ordered). apply X. rewrite W. apply in_elt.
      * assert (Q : a = a' /\ i = i').
        { apply (split_first _ (fun j => exists r v, assigned d (us_id user) r v /\ ar_name r = j) a i b a' i' b'); auto.
          - now rewrite <- W, <- W'.
          - now apply (get_not_assigned order ordered) in G.
          - intros x J. now apply (get_assigned order ordered), F'. }
        destruct Q as [_ <-]. rewrite say_bind, (bind_inl _ _ _ _ _ _ L), L'. reflexivity.
Qed.

(** The records of a request that is granted: the attributes recorded as activated are those of the user
    in the certificate, and the size recorded is that of the data returned. *)
Theorem C114_granted : forall d q h l r, answer d q h = (l, inl r) ->
  exists addr us cons, export (lit "REMOTE_ADDR") (rq_exports q) = Some addr /\
    c_atts (is_cert r) = Some (us ++ cons) /\ Forall (fun a => connection_id (at_id a)) cons /\
    granted_log K U checkpw hashpw debug sp au d q addr (map at_id us) (List.length (is_data r)) l.
Proof.
  intros d q h l r H. destruct (export (lit "REMOTE_ADDR") (rq_exports q)) as [addr|] eqn:E.
  2: { rewrite (request_no_addr K U au checkpw hashpw order debug sp d q h E) in H. discriminate. }
  destruct (l_authenticate K U au checkpw hashpw debug sp d q addr) as [l0 [[user name]|s]] eqn:A.
  2: { rewrite (request_stopped K U au checkpw hashpw order debug sp d q h addr l0 s E A) in H. discriminate. }
  rewrite (request_logged K U au checkpw hashpw order debug sp d q h addr name user l0 E A) in H. cbv zeta in H.
  pose proof (auth_logged K U au checkpw hashpw debug sp d q addr name user l0 A) as LI.
  destruct (after_login K U au sp name (order (user_atts d (us_id user))) q h) as [la xa] eqn:R.
  pose proof (after_log K U au checkpw hashpw order debug sp ordered d q h name user la xa R) as P.
  cbn [fst snd] in H. apply lw_inj in H as [<- ->]. destruct P as (ids & names & sel & I & N & S & M & ->).
  unfold l_make_ac in M. destruct (make_cert K U au name q (map snd sel) h) as [c|e] eqn:MC; [|discriminate]. rewrite ok_bind in M.
  destruct (ac_export K c FBytes true (Some (au_key au)) (lit "RSASSA-PKCS1-v1_5:SHA256")) as [c' [[b|t]|e]] eqn:X; [|discriminate|discriminate].
  rewrite ret_bind, !say_bind in M. cbn [snd lw_ret] in M. apply inl_inj in M. subst r. cbn [is_cert is_data].
  apply cert_inv in MC as (cons & us & C1 & C2 & ->). apply sign_export in X as (w & s & _ & _ & -> & _); [|discriminate].
  exists addr, us, cons. split; [reflexivity|]. split; [reflexivity|]. split; [exact (connection_con _ _ _ _ _ _ C1)|].
  assert (IDS : map at_id us = map fst sel).
  { rewrite (keyed_fst sel (select_keyed _ _ _ _ _ _ S)). clear - C2. induction C2 as [|p a ps as' (t & _ & ->) _ IH]; [reflexivity|]. cbn [map]. now rewrite IH. }
  rewrite IDS. rewrite <- app_assoc in LI || idtac.
  pose proof (gl_all K U checkpw hashpw debug sp au d q addr (map fst sel) (List.length b) name user _ LI) as G.
  rewrite I, N, forallb_app, <- !wanted_none, <- is_nil_app in G. cbn [app] in G. rewrite <- app_assoc in G. exact G.
Qed.

(** A login is recorded exactly if the user was authenticated. *)
Theorem C114_login : forall d q h addr name, NoDup (map us_name (d_users d)) -> (debug = true -> bcrypt_agrees checkpw hashpw) ->
  export (lit "REMOTE_ADDR") (rq_exports q) = Some addr -> rq_username q = Some name ->
  (In (login_rec name addr) (fst (answer d q h)) <-> exists user, authenticated K U checkpw au d q user name).
Proof.
  intros d q h addr name ND AG E N. split.
  - intros H. destruct (l_authenticate K U au checkpw hashpw debug sp d q addr) as [l0 [[user name']|s]] eqn:A.
    + pose proof (auth_inv K U au checkpw hashpw debug sp d q addr l0 _ A) as (pw & hash & hl & T & N' & I & L & [C1 C2] & C & _).
      rewrite N in N'. injection N' as <-. exists user. repeat (split; [assumption|]). exists pw, hash. auto.
    + exfalso. rewrite (request_stopped K U au checkpw hashpw order debug sp d q h addr l0 s E A) in H. cbn [fst] in H.
      destruct H as [H|H]; [discriminate|].
      unfold l_authenticate in A. destruct (negb (rq_type q =? 0)).
      { rewrite say_bind in A. apply lw_inj in A as [<- _]. destruct H as [H|[]]. discriminate. }
      rewrite N in A. destruct (find _ (d_users d)) as [user|].
      2: { rewrite say_bind in A. apply lw_inj in A as [<- _]. destruct H as [H|[]]. discriminate. }
      destruct (utf8_encode _) as [pw|]; [|apply lw_inj in A as [<- _]; destruct H]. rewrite ok_bind in A.
      destruct (utf8_encode _) as [hash|]; [|apply lw_inj in A as [<- _]; destruct H]. rewrite ok_bind in A.
      assert (G : forall l1, lw_bind (l1, inl tt) (fun _ : unit => ok <$ lw_of (checkpw pw hash) ;;
         (if ok
          then _ <$ say info_level (lit "Successful login by " ++ name ++ lit " from " ++ addr ++ lit ".") ;;
               _ <$ say info_level (timed (lit "Time to login: ") (sp_login sp)) ;; lw_ret (user, name)
          else _ <$ say info_level (lit "ClientFault: Bad password for user " ++ name ++ lit " in attribute_request from " ++ addr) ;;
               lw_stop (Fault (lit "Invalid credentials.")))) = (l0, inr s) -> In (login_rec name addr) l1).
      { intros l1 B. rewrite (bind_inl _ _ _ _ _ _ eq_refl) in B. destruct (checkpw pw hash) as [[|]|e].
        - rewrite ok_bind, !say_bind in B. discriminate.
        - rewrite ok_bind, say_bind in B. apply lw_inj in B as [<- _]. apply in_app_iff in H as [H|[H|[]]]; [exact H|discriminate].
        - apply lw_inj in B as [<- _]. apply in_app_iff in H as [H|[]]. exact H. }
      destruct debug.
      * destruct (hashpw pw hash) as [r|e]; [|apply lw_inj in A as [<- _]; destruct H]. rewrite ok_bind in A. apply G in A.
        destruct A as [A|[]]. discriminate.
      * apply G in A. destruct A.
  - intros (user & T & N' & I & L & pw & hash & C1 & C2 & C).
    assert (HN : exists hl, hash_noted hashpw debug pw hash hl).
    { destruct debug eqn:D; [|exists []; now constructor]. specialize (AG eq_refl pw hash). rewrite C in AG.
      destruct (hashpw pw hash) as [r|e] eqn:HP; [|discriminate]. eexists. exact (hn_on hashpw true pw hash r eq_refl HP). }
    destruct HN as [hl HN].
    assert (LI : logged_in K U checkpw hashpw debug sp au d q addr name user
      ([request_rec addr] ++ hl ++ [login_rec name addr; LRec 20 (lit "Time to login: " ++ sp_login sp ++ lit " seconds.");
        LRec 20 (lit "Time to get atts: " ++ sp_get sp ++ lit " seconds.")])).
    { apply (li_all _ _ _ _ _ _ _ _ _ addr name user pw hash hl); auto. split; auto. }
    apply (logged_auth K U au checkpw hashpw debug sp d q addr name user _ ND) in LI as (l0 & Q & A).
    rewrite (request_logged K U au checkpw hashpw order debug sp d q h addr name user l0 E A). cbv zeta. cbn [fst].
    assert (J : In (login_rec name addr) (request_rec addr :: l0 ++ [LRec 20 (lit "Time to get atts: " ++ sp_get sp ++ lit " seconds.")])).
    { rewrite <- Q. apply in_app_iff. right. apply in_app_iff. right. now left. }
    destruct J as [J|J]; [now left|]. right. apply in_app_iff in J as [J|[J|[]]]; [|discriminate].
    apply in_app_iff. now left.
Qed.

(** *** What is kept from the client and from the log *)

(** An unknown user and a password bcrypt refuses: the client is told the same. *)
Theorem C114_hidden : forall d q h addr name, export (lit "REMOTE_ADDR") (rq_exports q) = Some addr ->
  rq_type q = 0 -> rq_username q = Some name ->
  (forall u, In u (d_users d) -> us_name u = py_lower U name ->
     exists pw hash, compares K au q u pw hash /\ checkpw pw hash = Ok false /\ (debug = true -> exists r, hashpw pw hash = Ok r)) ->
  snd (answer d q h) = inr (Fault (lit "Invalid credentials.")).
Proof.
  intros d q h addr name E T N H.
  destruct (find (fun u => str_eqb (us_name u) (py_lower U name)) (d_users d)) as [user|] eqn:F.
  - pose proof (find_some _ _ F) as [F1 F2]. apply str_eqb_eq in F2. destruct (H user F1 F2) as (pw & hash & CM & C & D).
    assert (HN : exists hl, hash_noted hashpw debug pw hash hl).
    { destruct debug; [|exists []; now constructor]. destruct (D eq_refl) as [r R]. eexists. exact (hn_on hashpw true pw hash r eq_refl R). }
    destruct HN as [hl HN].
    rewrite (request_stopped K U au checkpw hashpw order debug sp d q h addr _ (Fault (lit "Invalid credentials.")) E
      (auth_found K U au checkpw hashpw debug sp d q addr name user pw hash hl false T N F CM C HN)). reflexivity.
  - unfold l_request. rewrite E, ret_bind, say_bind. cbn [snd]. unfold l_authenticate. rewrite T, N. cbn [Z.eqb negb]. rewrite F. reflexivity.
Qed.

(** With a logger for DEBUG a login writes the stored hash itself into the log. *)
Definition plain_hash (s : str) : Prop := Forall (fun c => (32 <= c <= 126)%N /\ c <> 39%N /\ c <> 92%N) s.
Lemma hash_encode : forall s, plain_hash s -> utf8_encode s = Ok s.
Proof.
  intros s H. apply utf8_ascii. unfold is_ascii. apply forallb_forall. intros c I. unfold plain_hash in H. rewrite Forall_forall in H.
  destruct (H c I) as [B _]. apply N.ltb_lt. lia.
Qed.
Lemma hash_str : forall s, plain_hash s -> bytes_str s = lit "b'" ++ s ++ lit "'".
Proof.
  intros s H. unfold bytes_str, quote.
  replace (existsb (N.eqb 39) s) with false.
  2: { symmetry. apply not_true_is_false. intros X. apply existsb_exists in X as (c & I & X). apply N.eqb_eq in X. subst c.
       unfold plain_hash in H; rewrite Forall_forall in H. destruct (H _ I) as (_ & Q & _). now apply Q. }
  cbn [andb]. change (lit "b'") with (lit "b" ++ [39%N]). rewrite <- app_assoc. do 2 f_equal. change (lit "'") with [39%N]. f_equal.
  induction H as [|c s (B & Q & R) _ IH]; [reflexivity|]. cbn [flat_map]. rewrite IH. change (c :: s) with ([c] ++ s). f_equal.
  unfold byte_escape. apply N.eqb_neq in Q, R. rewrite Q, R. cbn [orb].
  destruct (N.eqb_spec c 9); [lia|]. destruct (N.eqb_spec c 10); [lia|]. destruct (N.eqb_spec c 13); [lia|].
  destruct (N.ltb_spec c 32); [lia|]. destruct (N.leb_spec 127 c); [lia|]. reflexivity.
Qed.
Theorem C114_hash : forall d q h addr name user, NoDup (map us_name (d_users d)) -> debug = true -> bcrypt_agrees checkpw hashpw ->
  export (lit "REMOTE_ADDR") (rq_exports q) = Some addr -> authenticated K U checkpw au d q user name -> plain_hash (us_password user) ->
  In (LRec 10 (lit "Hash for request is: b'" ++ us_password user ++ lit "'")) (fst (answer d q h)).
Proof.
  intros d q h addr name user ND D AG E (T & N & I & L & pw & hash & C1 & C2 & C) P.
  rewrite (hash_encode _ P) in C2. apply Ok_inj in C2. subst hash.
  assert (HP : hashpw pw (us_password user) = Ok (us_password user)).
  { specialize (AG pw (us_password user)). rewrite C in AG. destruct (hashpw pw (us_password user)) as [r|]; [|discriminate].
    apply Ok_inj in AG. symmetry in AG. apply bytes_eqb_eq in AG. now subst r. }
  assert (CM : compares K au q user pw (us_password user)) by (split; [exact C1|exact (hash_encode _ P)]).
  pose proof (auth_found K U au checkpw hashpw debug sp d q addr name user pw (us_password user) _ true T N (find_user U d user name ND I L) CM C
    (hn_on hashpw debug pw (us_password user) _ D HP)) as A.
  rewrite (request_logged K U au checkpw hashpw order debug sp d q h addr name user _ E A). cbv zeta. cbn [fst].
  right. rewrite (hash_str _ P). left. change (lit "Hash for request is: b'") with (lit "Hash for request is: " ++ lit "b'"). now rewrite <- app_assoc.
Qed.
End Requests.
Print Assumptions C114_same.
Print Assumptions C114_refused.
Print Assumptions C114_granted.
Print Assumptions C114_login.
Print Assumptions C114_hidden.
Print Assumptions C114_hash.

(** The records from INFO on and the answer do not depend on the password or the pepper but for what
    bcrypt says. *)
Theorem C114_secret : forall K U (au : authority K) checkpw hashpw order debug sp d q h p1 p2 s1 s2,
  (forall user, In user (d_users d) -> exists pw1 pw2 hash ok,
     compares K (with_pepper s1 au) (with_password p1 q) user pw1 hash /\ compares K (with_pepper s2 au) (with_password p2 q) user pw2 hash /\
     checkpw pw1 hash = Ok ok /\ checkpw pw2 hash = Ok ok /\
     (debug = true -> (exists r, hashpw pw1 hash = Ok r) /\ exists r, hashpw pw2 hash = Ok r)) ->
  let one := l_request K U (with_pepper s1 au) checkpw hashpw order debug sp d (with_password p1 q) h in
  let two := l_request K U (with_pepper s2 au) checkpw hashpw order debug sp d (with_password p2 q) h in
  from_info (fst one) = from_info (fst two) /\ snd one = snd two.
Proof.
  intros K U au checkpw hashpw order debug sp d q h p1 p2 s1 s2 H one two.
  destruct (export (lit "REMOTE_ADDR") (rq_exports q)) as [addr|] eqn:E.
  2: { unfold one, two. rewrite !request_no_addr by exact E. auto. }
  set (a1 := l_authenticate K U (with_pepper s1 au) checkpw hashpw debug sp d (with_password p1 q) addr).
  set (a2 := l_authenticate K U (with_pepper s2 au) checkpw hashpw debug sp d (with_password p2 q) addr).
  assert (G : from_info (fst a1) = from_info (fst a2) /\ snd a1 = snd a2).
  { unfold a1, a2, l_authenticate. cbn [with_password rq_type rq_username].
    destruct (negb (rq_type q =? 0)); [auto|]. destruct (rq_username q) as [name|]; [|auto].
    destruct (find _ (d_users d)) as [user|] eqn:F; [|auto]. apply find_some in F as [F _].
    destruct (H user F) as (pw1 & pw2 & hash & ok & [A1 A2] & [B1 B2] & C1 & C2 & HP). clear H.
    change (utf8_encode (str_of_opt p1 ++ str_of_opt s1) = Ok pw1) in A1.
    change (utf8_encode (str_of_opt p2 ++ str_of_opt s2) = Ok pw2) in B1.
    cbn [with_password rq_password with_pepper au_pepper]. rewrite A1, B1, A2, !ok_bind.
    destruct debug.
    - destruct (HP eq_refl) as [[r1 R1] [r2 R2]]. rewrite R1, R2, !ok_bind, !say_bind, C1, C2, !ok_bind. destruct ok; auto.
    - rewrite !ret_bind, C1, C2, !ok_bind. auto. }
  destruct G as [G1 G2]. destruct a1 as [l1 x1] eqn:Q1, a2 as [l2 x2] eqn:Q2. cbn [fst snd] in G1, G2. subst x2.
  destruct x1 as [[user name]|s].
  - unfold one, two.
    rewrite (request_logged K U (with_pepper s1 au) checkpw hashpw order debug sp d (with_password p1 q) h addr name user l1 E Q1).
    rewrite (request_logged K U (with_pepper s2 au) checkpw hashpw order debug sp d (with_password p2 q) h addr name user l2 E Q2).
    cbv zeta. split; [|reflexivity]. cbn [fst]. unfold from_info. cbn [filter request_rec lr_level].
    change (20 <=? 20) with true. cbv iota. f_equal. rewrite !filter_app. unfold from_info in G1. rewrite G1. reflexivity.
  - unfold one, two.
    rewrite (request_stopped K U (with_pepper s1 au) checkpw hashpw order debug sp d (with_password p1 q) h addr l1 s E Q1).
    rewrite (request_stopped K U (with_pepper s2 au) checkpw hashpw order debug sp d (with_password p2 q) h addr l2 s E Q2).
    split; [|reflexivity]. cbn [fst]. unfold from_info. cbn [filter request_rec lr_level]. change (20 <=? 20) with true. cbv iota. f_equal. exact G1.
Qed.
Print Assumptions C114_secret.

(** *** Where the log misleads *)

(** Whatever the text: somebody who is nobody can have it stand on a line of its own in the log. *)
Theorem C114_forged : forall K U (au : authority K) checkpw hashpw order debug sp d h addr t, is_ascii t = true ->
  exists name before after, forall q, export (lit "REMOTE_ADDR") (rq_exports q) = Some addr -> rq_type q = 0 -> rq_username q = Some name ->
    l_request K U au checkpw hashpw order debug sp d q h =
      ([request_rec addr; LRec 20 (before ++ [10%N] ++ t ++ [10%N] ++ after)], inr (Fault (lit "Invalid credentials."))).
Proof.
  intros K U au checkpw hashpw order debug sp d h addr t A.
  set (pad := repeat 97%N (S (fold_right Nat.max 0%nat (map (fun u => List.length (us_name u)) (d_users d))))).
  set (name := pad ++ [10%N] ++ t ++ [10%N]).
  assert (PA : is_ascii pad = true) by (unfold pad; generalize (S (fold_right Nat.max 0%nat (map (fun u => List.length (us_name u)) (d_users d)))); induction n; auto).
  assert (NA : is_ascii name = true).
  { unfold name, is_ascii in *. rewrite !forallb_app, A, PA. reflexivity. }
  exists name, (lit "ClientFault: No such username (" ++ pad), (lit ") found in attribute_request from " ++ addr).
  intros q E T N.
  assert (F : find (fun u => str_eqb (us_name u) (py_lower U name)) (d_users d) = None).
  { apply find_no_user. intros u I Q. unfold py_lower in Q. rewrite NA in Q.
    assert (X : (List.length (us_name u) < List.length (map lower_c name))%nat).
    { rewrite map_length. unfold name. rewrite app_length. unfold pad. rewrite repeat_length.
      assert (M : (List.length (us_name u) <= fold_right Nat.max 0%nat (map (fun u => List.length (us_name u)) (d_users d)))%nat).
      { clear - I. induction (d_users d) as [|v l IH]; [destruct I|]. cbn [map fold_right]. destruct I as [->|I]; [lia|]. specialize (IH I). lia. }
      lia. }
    rewrite Q in X. lia. }
  rewrite (request_stopped K U au checkpw hashpw order debug sp d q h addr
    [LRec 20 (lit "ClientFault: No such username (" ++ name ++ lit ") found in attribute_request from " ++ addr)] (Fault (lit "Invalid credentials.")) E).
  - unfold name. do 4 f_equal. rewrite <- !app_assoc. reflexivity.
  - unfold l_authenticate. rewrite T, N. cbn [Z.eqb negb]. rewrite F. reflexivity.
Qed.
Print Assumptions C114_forged.

(** With a logger for INFO a request refused for the type of its credentials leaves no trace of that. *)
Theorem C114_unseen : forall K U (au : authority K) checkpw hashpw order debug sp d q h addr,
  export (lit "REMOTE_ADDR") (rq_exports q) = Some addr -> rq_type q <> 0 ->
  from_info (fst (l_request K U au checkpw hashpw order debug sp d q h)) = [request_rec addr].
Proof.
  intros K U au checkpw hashpw order debug sp d q h addr E T. unfold l_request. rewrite E, ret_bind, say_bind. unfold l_authenticate.
  apply Z.eqb_neq in T. rewrite T. reflexivity.
Qed.
Print Assumptions C114_unseen.

(** ** Where the records go *)

Lemma emit_keeps : forall n l st, l_loggers (emit n l st) = l_loggers st /\ l_adopted (emit n l st) = l_adopted st.
Proof.
  intros n. induction l as [|r l IH]; intros st; [auto|]. unfold emit. cbn [fold_left].
  change (fold_left (fun st r => log n (lr_level r) (lr_text r) st) l ?x) with (emit n l x).
  destruct (IH (log n (lr_level r) (lr_text r) st)) as [-> ->].
  unfold log. destruct (lr_level r <? effective st n); [auto|].
  generalize (flat_map (handlers_of st) (family st n)) as hs. intros hs. revert st.
  induction hs as [|x hs IHh]; intros st; [auto|]. cbn [fold_left]. destruct (IHh (write (Rec n (lr_level r) (lr_text r)) st x)) as [-> ->].
  unfold write. destruct (h_file x); auto.
Qed.
(** A file gets, for each record from the level in force on, a line from each handler that writes to it. *)
Theorem C114_file : forall n recs st l t hs f fs before, path st n l -> threshold st l t -> met st l hs -> to_file f hs fs -> lines_in st f before ->
  lines_in (emit n recs st) f
    (before ++ flat_map (fun r => if t <=? lr_level r then map (fun h => (h, Rec n (lr_level r) (lr_text r))) fs else []) recs).
Proof.
  intros n recs. induction recs as [|r recs IH]; intros st l t hs f fs before P T M F L; cbn [flat_map]; [now rewrite app_nil_r|].
  pose proof (C78_written st n (lr_level r) (lr_text r) l t hs f fs before P T M F L) as W.
  destruct (emit_keeps n [r] st) as [E1 E2]. cbn [emit fold_left] in E1, E2.
  rewrite app_assoc. unfold emit. cbn [fold_left]. apply (IH (log n (lr_level r) (lr_text r) st) l t hs f fs); auto.
  - unfold path, known in *. rewrite E1, E2. exact P.
  - clear - T E1. induction T; [apply th_root|apply th_set; [now rewrite E1|assumption]|apply th_unset; [now rewrite E1|assumption]].
  - clear - M E1. induction M; [apply mt_nil|apply mt_known; [now rewrite E1|assumption]|apply mt_unknown; [now rewrite E1|assumption]].
Qed.
Print Assumptions C114_file.

(** ** Examples and refutations *)

Definition ex_hashpw (p h : bytes) : res bytes := Ok p.
Definition ex_spans : spans := Spans (lit "0.1") (lit "0.2") (lit "0.3") (lit "0.4") (lit "0.5") (lit "0.6").
Definition ex_logged (debug : bool) (q : request) : lw issued :=
  l_request toy ascii_only ex_au ex_checkpw ex_hashpw (fun l => l) debug ex_spans ex_users q ex_chance.
Lemma ex_agrees : bcrypt_agrees ex_checkpw ex_hashpw.
Proof. intros pw hash. reflexivity. Qed.
Lemma ex_names_unique : NoDup (map us_name (d_users ex_users)).
Proof. cbn [ex_users d_users map us_name]. repeat constructor; cbn [In]; intros H; intuition discriminate. Qed.

(** A granted request: all records. *)
Example ex_granted_log :
  let r := ex_logged true (ex_request (lit "Alice") (lit "secret") [Some (lit "/a/age"); None] [Some (lit "role")] (lit "10.0.0.1")) in
  map lr_text (fst r) =
    [lit "Attribute request on AttributeAuthority from 10.0.0.1."; lit "Hash for request is: b'secretpepper'";
     lit "Successful login by Alice from 10.0.0.1."; lit "Time to login: 0.1 seconds."; lit "Time to get atts: 0.2 seconds.";
     lit "Alice has requested a subset or their attributes.";
     lit "Alice has activated the following attributes: [/a/age, /b/role]"; lit "Time to proccess atts: 0.3 seconds.";
     lit "AC generation time: 0.4 seconds."] ++ skipn 9 (map lr_text (fst r)) /\
  map lr_level (fst r) = [20; 10; 20; 20; 20; 10; 20; 20; 20; 20; 20; 20] /\
  match snd r with inl i => option_map (fun l => firstn 3 (map at_id l)) (c_atts (is_cert i)) | _ => None end <> None.
Proof. vm_compute. repeat split. discriminate. Qed.
(** Five refusals. *)
Example ex_refusals :
  map (fun q => let r := ex_logged false q in (option_map lr_text (last (map Some (fst r)) None), match snd r with inr (Fault t) => t | _ => [] end))
    [Request 3 (Some (lit "alice")) (Some (lit "secret")) [9]%N (lit "RSA") 2048 (Some []) (Some []) [(lit "REMOTE_ADDR", lit "10.0.0.1")];
     ex_request (lit "carol") (lit "secret") [] [] (lit "10.0.0.1");
     ex_request (lit "bob") (lit "secret") [] [] (lit "10.0.0.1");
     ex_request (lit "bob") (lit "hidden") [Some (lit "/a/age"); Some (lit "/a/role")] [] (lit "10.0.0.1");
     ex_request (lit "bob") (lit "hidden") [Some (lit "/a/age")] [Some (lit "role")] (lit "10.0.0.1")] =
  [(Some (lit "ClientFault: Unsupported credential type: 3 in attribute_request from 10.0.0.1"), lit "Unsupported credential type.");
   (Some (lit "ClientFault: No such username (carol) found in attribute_request from 10.0.0.1"), lit "Invalid credentials.");
   (Some (lit "ClientFault: Bad password for user bob in attribute_request from 10.0.0.1"), lit "Invalid credentials.");
   (Some (lit "bob requested the attribute /a/role but they have not been assigned                             that attribute."),
    lit "Invalid attribute id: You have not been assigned the attribute /a/role.");
   (Some (lit "bob requested the attribute by name (role) but they have not been assigned an attribute with that name."),
    lit "Invalid attribute id: You have not been assigned an attribute with the name role.")].
Proof. vm_compute. reflexivity. Qed.
(** The hypotheses about users met by the concrete tables, and the theorem about the hash used. *)
Example ex_hash_logged : In (LRec 10 (lit "Hash for request is: b'hiddenpepper'"))
  (fst (ex_logged true (ex_request (lit "BOB") (lit "hidden") [] [] (lit "10.0.0.1")))).
Proof.
  apply (C114_hash toy ascii_only ex_au ex_checkpw ex_hashpw (fun l => l) true ex_spans ex_users
    (ex_request (lit "BOB") (lit "hidden") [] [] (lit "10.0.0.1")) ex_chance (lit "10.0.0.1") (lit "BOB")
    (UserRow 2 (lit "bob") (lit "hiddenpepper")) ex_names_unique eq_refl ex_agrees eq_refl).
  - split; [reflexivity|]. split; [reflexivity|]. split; [right; left; reflexivity|]. split; [vm_compute; reflexivity|].
    exists (lit "hiddenpepper"), (lit "hiddenpepper"). repeat split; vm_compute; reflexivity.
  - apply Forall_forall. intros c I. cbn [us_password] in I. vm_compute in I. repeat (destruct I as [<-|I]; [lia|]). destruct I.
Qed.
(** Two passwords bcrypt refuses, under two peppers. *)
Example ex_secret : let one := ex_logged true (ex_request (lit "bob") (lit "wrong") [] [] (lit "10.0.0.1")) in
  let two := ex_logged true (ex_request (lit "bob") (lit "bad") [] [] (lit "10.0.0.1")) in
  from_info (fst one) = from_info (fst two) /\ snd one = snd two /\ fst one <> fst two.
Proof. vm_compute. repeat split. discriminate. Qed.

(** A name that writes a line of its own. *)
Example ex_forged : map lr_text (fst (ex_logged false (ex_request (lit "x" ++ [10%N] ++ lit "Successful login by alice from 10.0.0.1.") (lit "") [] [] (lit "10.0.0.9")))) =
  [lit "Attribute request on AttributeAuthority from 10.0.0.9.";
   lit "ClientFault: No such username (x" ++ [10%N] ++ lit "Successful login by alice from 10.0.0.1.) found in attribute_request from 10.0.0.9"].
Proof. vm_compute. reflexivity. Qed.

(** A wrong name and a wrong password cannot be told apart: not so.  For a password that has no UTF-8 the
    answer is a fault if there is no such user, and an exception if there is. *)
Theorem C114_hidden_refuted : exists d pass n1 n2, let ask n := l_request toy ascii_only ex_au ex_checkpw ex_hashpw (fun l => l) false ex_spans d
    (ex_request n pass [] [] (lit "10.0.0.1")) ex_chance in
  (forall user n, ~ authenticated toy ascii_only ex_checkpw ex_au d (ex_request n pass [] [] (lit "10.0.0.1")) user n) /\
  ~ In n1 (map us_name (d_users d)) /\ In n2 (map us_name (d_users d)) /\
  snd (ask n1) = inr (Fault (lit "Invalid credentials.")) /\ snd (ask n2) = inr (Crash EUnicodeEncode).
Proof.
  exists ex_users, [55296%N], (lit "carol"), (lit "alice"). cbv zeta.
  split. { intros user n (_ & _ & _ & _ & pw & hash & C1 & _). vm_compute in C1. discriminate. }
  split. { cbn [ex_users d_users map us_name In]. intros H. intuition discriminate. }
  split; [left; reflexivity|]. split; vm_compute; reflexivity.
Qed.
Print Assumptions C114_hidden_refuted.

(** Attributes recorded as activated are in a certificate: not so.  The record is made before the
    certificate, which an address such as ::1 prevents. *)
Theorem C114_activated_refuted : exists d q name ids e l,
  l_request toy ascii_only ex_au ex_checkpw ex_hashpw (fun l => l) false ex_spans d q ex_chance = (l, inr (Crash e)) /\
  In (LRec 20 (name ++ lit " has activated the following attributes: [" ++ join (lit ", ") ids ++ lit "]")) l /\ ids <> [].
Proof.
  exists ex_users, (ex_request (lit "alice") (lit "secret") [] [] (lit "::1")), (lit "alice"), [lit "/a/age"; lit "/a/role"; lit "/b/role"], EValue. eexists.
  split; [vm_compute; reflexivity|]. split; [|discriminate].
  vm_compute. repeat (first [left; reflexivity|right]).
Qed.
Print Assumptions C114_activated_refuted.

(** With the configuration of the repository the log file of the services gets the stored hash of
    everybody who logs in. *)
Example ex_hash_in_file :
  let '(st, r) := ex_start shipped_services shipped_clients [] in
  let '(st, a) := make_logger ConfigProps.U0 shipped_services shipped_clients ex_dir (fun _ => true) (lit "now") (lit "AAUTH") true (l_service st) st in
  let recs := fst (ex_logged true (ex_request (lit "bob") (lit "hidden") [] [] (lit "10.0.0.1"))) in
  let st := match a with LOk n => emit n recs st | _ => st end in
  r = LOk tt /\ a = LOk (lit "hgaa.services.aauth") /\ effective st (lit "hgaa.services.aauth") = 10 /\
  count st service_file (lit "Hash for request is: b'hiddenpepper'") = 1%nat.
Proof. vm_compute. repeat split. Qed.
