(** * AAuthLogProofs: proofs about the records of the attribute authority *)

From Coq Require Import NArith ZArith List Bool String Permutation Lia.
From Verif Require Import PyBase LexProofs PyNum Struct AttCert CertSpec AAuth AAuthSpec AAuthProofs BytesProofs Demo Show AAuthLog AAuthLogSpec.
From Verif Require Import AAuthProps.
Import ListNotations.
Open Scope Z_scope.

(** ** The writer *)

Lemma lw_inj : forall A (a b : list lrec) (x y : A + stop), (a, x) = (b, y) -> a = b /\ x = y.
Proof. intros A a b x y H. split; [exact (f_equal fst H)|exact (f_equal snd H)]. Qed.
Lemma inl_inj : forall A B (x y : A), @inl A B x = inl y -> x = y.
Proof. intros A B x y H. congruence. Qed.
Lemma inr_inj : forall A B (x y : B), @inr A B x = inr y -> x = y.
Proof. intros A B x y H. congruence. Qed.
Lemma fault_inj : forall x y, Fault x = Fault y -> x = y.
Proof. intros x y H. congruence. Qed.

Lemma bind_inl : forall A B (m : lw A) (f : A -> lw B) l a, m = (l, inl a) -> lw_bind m f = (l ++ fst (f a), snd (f a)).
Proof. intros A B m f l a ->. unfold lw_bind. now destruct (f a). Qed.
Lemma bind_inr : forall A B (m : lw A) (f : A -> lw B) l s, m = (l, inr s) -> lw_bind m f = (l, inr s).
Proof. intros A B m f l s ->. reflexivity. Qed.
Lemma say_bind : forall B lvl t (f : unit -> lw B), lw_bind (say lvl t) f = (LRec lvl t :: fst (f tt), snd (f tt)).
Proof. intros B lvl t f. unfold lw_bind, say. now destruct (f tt). Qed.
Lemma ret_bind : forall A B (a : A) (f : A -> lw B), lw_bind (lw_ret a) f = f a.
Proof. intros A B a f. unfold lw_bind, lw_ret. destruct (f a). reflexivity. Qed.
Lemma ok_bind : forall A B (a : A) (f : A -> lw B), lw_bind (lw_of (Ok a)) f = f a.
Proof. intros. apply ret_bind. Qed.

Lemma forget_bind : forall A B (m : lw A) (f : A -> lw B), forget (lw_bind m f) = (x <- forget m ;; forget (f x)).
Proof. intros A B [l [a|s]] f; unfold forget, lw_bind; cbn [snd bind]; [destruct (f a)|]; reflexivity. Qed.
Lemma forget_of : forall A (m : res A), forget (lw_of m) = m.
Proof. intros A [a|e]; reflexivity. Qed.
Lemma forget_say : forall B lvl t (k : unit -> lw B), forget (lw_bind (say lvl t) k) = forget (k tt).
Proof. intros. now rewrite forget_bind. Qed.

(** ** Names asked for *)

Lemma wanted_app : forall a b, wanted (a ++ b) = wanted a ++ wanted b.
Proof. intros a b. unfold wanted. apply flat_map_app. Qed.
Lemma wanted_one : forall s : str, s <> [] -> s <> lit "*" -> wanted [Some s] = [s].
Proof. intros s A B. apply str_eqb_false in A, B. unfold wanted. cbn [flat_map]. now rewrite A, B. Qed.
Lemma wanted_split : forall l a s b, wanted l = a ++ s :: b ->
  exists a' b', l = a' ++ Some s :: b' /\ wanted a' = a /\ wanted b' = b /\ s <> [] /\ s <> lit "*".
Proof.
  induction l as [|o l IH]; intros a s b H; [destruct a; discriminate|].
  change (o :: l) with ([o] ++ l) in H. rewrite wanted_app in H.
  assert (C : wanted [o] = [] \/ exists t, o = Some t /\ t <> [] /\ t <> lit "*" /\ wanted [o] = [t]).
  { destruct o as [t|]; [|now left]. unfold wanted. cbn [flat_map].
    destruct (str_eqb t [] || str_eqb t (lit "*")) eqn:E; [now left|]. right.
    apply orb_false_iff in E as [E1 E2]. apply str_eqb_false in E1, E2. exists t. auto. }
  destruct C as [C|(t & -> & T1 & T2 & C)]; rewrite C in H; cbn [app] in H.
  - destruct (IH a s b H) as (a' & b' & -> & E1 & E2 & E3). exists (o :: a'), b'. split; [reflexivity|].
    split; [|auto]. transitivity (wanted [o] ++ wanted a'); [exact (wanted_app [o] a')|]. now rewrite C, E1.
  - destruct a as [|x a]; cbn [app] in H.
    + injection H as <- H. exists [], l. split; [reflexivity|]. auto.
    + injection H as <- H. destruct (IH a s b H) as (a' & b' & -> & E1 & E2 & E3). exists (Some t :: a'), b'.
      split; [reflexivity|]. split; [|auto]. transitivity (wanted [Some t] ++ wanted a'); [exact (wanted_app [Some t] a')|]. now rewrite C, E1.
Qed.
Lemma missing_wanted : forall l has s, first_missing l has s <->
  exists a b, wanted l = a ++ s :: b /\ ~ has s /\ forall t, In t a -> has t.
Proof.
  intros l has s. split.
  - intros (a & b & -> & N1 & N2 & N & H). exists (wanted a), (wanted b).
    split.
    { rewrite wanted_app. f_equal. pose proof (wanted_app [Some s] b) as W. rewrite (wanted_one s N1 N2) in W. exact W. }
    split; [exact N|]. intros t I. apply wanted_spec in I as (m & [= <-] & I & T1 & T2). auto.
  - intros (a & b & E & N & H). apply wanted_split in E as (a' & b' & -> & E1 & E2 & N1 & N2).
    exists a', b'. repeat split; auto. intros t I T1 T2. apply H. rewrite <- E1. apply wanted_spec. exists a'. auto.
Qed.

(** The two loops: all are there, or the first that is not is named. *)
Lemma take_ids_log : forall name by_id ids acc,
  (exists d, l_take_ids name by_id ids acc = ([], inl d) /\ take_ids by_id ids acc = Ok d /\ forall i, In i ids -> dict_get i by_id <> None) \/
  (exists a i b, ids = a ++ i :: b /\ dict_get i by_id = None /\ (forall j, In j a -> dict_get j by_id <> None) /\
     take_ids by_id ids acc = Err EClientFault /\
     l_take_ids name by_id ids acc =
       ([LRec 20 (name ++ lit " requested the attribute " ++ i ++ lit " but they have not been assigned                             that attribute.")],
        inr (Fault (lit "Invalid attribute id: You have not been assigned the attribute " ++ i ++ lit ".")))).
Proof.
  intros name by_id. induction ids as [|i ids IH]; intros acc; cbn [l_take_ids take_ids].
  - left. exists acc. split; [reflexivity|]. split; [reflexivity|]. intros i [].
  - destruct (dict_get i by_id) as [v|] eqn:G.
    + destruct (IH (dict_set (ar_id (fst v)) v acc)) as [(d & L & T & A)|(a & j & b & -> & N & A & T & L)].
      * left. exists d. split; [exact L|]. split; [exact T|]. intros j [<-|I]; [congruence|auto].
      * right. exists (i :: a), j, b. split; [reflexivity|]. split; [exact N|]. split; [|auto].
        intros k [<-|I]; [congruence|auto].
    + right. exists [], i, ids. split; [reflexivity|]. split; [exact G|]. split; [intros j []|]. split; reflexivity.
Qed.
Lemma take_names_log : forall name by_name names acc,
  (exists d, l_take_names name by_name names acc = ([], inl d) /\ take_names by_name names acc = Ok d /\ forall i, In i names -> dict_get i by_name <> None) \/
  (exists a i b, names = a ++ i :: b /\ dict_get i by_name = None /\ (forall j, In j a -> dict_get j by_name <> None) /\
     take_names by_name names acc = Err EClientFault /\
     l_take_names name by_name names acc =
       ([LRec 20 (name ++ lit " requested the attribute by name (" ++ i ++ lit ") but they have not been assigned an attribute with that name.")],
        inr (Fault (lit "Invalid attribute id: You have not been assigned an attribute with the name " ++ i ++ lit ".")))).
Proof.
  intros name by_name. induction names as [|i names IH]; intros acc; cbn [l_take_names take_names].
  - left. exists acc. split; [reflexivity|]. split; [reflexivity|]. intros i [].
  - destruct (dict_get i by_name) as [v|] eqn:G.
    + destruct (IH (match dict_get (ar_id (fst v)) acc with None => dict_set (ar_id (fst v)) v acc | Some _ => acc end))
        as [(d & L & T & A)|(a & j & b & -> & N & A & T & L)].
      * left. exists d. split; [exact L|]. split; [exact T|]. intros j [<-|I]; [congruence|auto].
      * right. exists (i :: a), j, b. split; [reflexivity|]. split; [exact N|]. split; [|auto].
        intros k [<-|I]; [congruence|auto].
    + right. exists [], i, names. split; [reflexivity|]. split; [exact G|]. split; [intros j []|]. split; reflexivity.
Qed.
(** A loop that stops stops at the first missing name. *)
Lemma split_first : forall A (P : A -> Prop) a i b a' i' b', a ++ i :: b = a' ++ i' :: b' ->
  ~ P i -> ~ P i' -> (forall x, In x a -> P x) -> (forall x, In x a' -> P x) -> a = a' /\ i = i'.
Proof.
  intros A P. induction a as [|x a IH]; intros i b [|y a'] i' b' H N N' F F'; cbn [app] in H; injection H as E H.
  - auto.
  - subst y. exfalso. apply N, F'. now left.
  - subst x. exfalso. apply N', F. now left.
  - subst y. destruct (IH i b a' i' b' H N N') as [-> ->]; auto; intros z I; [apply F|apply F']; now right.
Qed.

Section WithCrypto.
Variable K : crypto.
Variable U : unicode.
Variable au : authority K.
Variable checkpw : bytes -> bytes -> res bool.
Variable hashpw : bytes -> bytes -> res bytes.
Variable order : list valued -> list valued.
Variable debug : bool.
Variable sp : spans.

Notation L_auth := (l_authenticate K U au checkpw hashpw debug sp).
Notation L_req := (l_request K U au checkpw hashpw order debug sp).
Notation logged := (logged_in K U checkpw hashpw debug sp au).
Notation refusal := (refused K U checkpw hashpw debug sp au).
Notation noted := (hash_noted hashpw debug).

(** ** Without records *)

Hypothesis agrees : debug = true -> bcrypt_agrees checkpw hashpw.

Lemma auth_same : forall d q addr, forget (L_auth d q addr) = authenticate K U au checkpw d q.
Proof.
  intros d q addr. unfold l_authenticate, authenticate. destruct (negb (rq_type q =? 0)); [now rewrite forget_say|].
  destruct (rq_username q) as [name|]; [|reflexivity]. destruct (find _ (d_users d)) as [user|]; [|now rewrite forget_say].
  rewrite forget_bind, forget_of. destruct (utf8_encode (str_of_opt (rq_password q) ++ str_of_opt (au_pepper au))) as [pw|]; cbn [bind]; [|reflexivity].
  rewrite forget_bind, forget_of. destruct (utf8_encode (us_password user)) as [hash|]; cbn [bind]; [|reflexivity].
  rewrite forget_bind.
  assert (E : (x <- checkpw pw hash ;; (if x then Ok (user, name) else Err EClientFault)) =
    forget (ok <$ lw_of (checkpw pw hash) ;;
      (if ok
       then _ <$ say info_level (lit "Successful login by " ++ name ++ lit " from " ++ addr ++ lit ".") ;;
            _ <$ say info_level (timed (lit "Time to login: ") (sp_login sp)) ;; lw_ret (user, name)
       else _ <$ say info_level (lit "ClientFault: Bad password for user " ++ name ++ lit " in attribute_request from " ++ addr) ;;
            lw_stop (Fault (lit "Invalid credentials."))))).
  { rewrite forget_bind, forget_of. destruct (checkpw pw hash) as [[|]|e]; cbn [bind]; [|now rewrite forget_say|reflexivity].
    rewrite forget_say, forget_say. reflexivity. }
  rewrite E. destruct debug eqn:D; [|reflexivity].
  rewrite forget_bind, forget_of. pose proof (agrees eq_refl pw hash) as A.
  destruct (hashpw pw hash) as [r|e]; cbn [bind]; [reflexivity|]. rewrite A. reflexivity.
Qed.
Lemma select_same : forall name rows ids names, (x <- forget (l_select name rows ids names) ;; Ok (map snd x)) = select rows ids names.
Proof.
  intros name rows ids names.
  assert (G : (x <- forget (acc <$ l_take_ids name (dict_by ar_id rows) ids [] ;; l_take_names name (dict_by ar_name rows) names acc) ;; Ok (map snd x)) =
    (acc <- take_ids (dict_by ar_id rows) ids [] ;; acc <- take_names (dict_by ar_name rows) names acc ;; Ok (map snd acc))).
  { rewrite forget_bind. destruct (take_ids_log name (dict_by ar_id rows) ids []) as [(d & -> & -> & _)|(a & i & b & _ & _ & _ & -> & ->)]; [|reflexivity].
    match goal with |- context [forget ([], inl d)] => change (forget ([], inl d)) with (Ok d) end. cbn [bind].
    destruct (take_names_log name (dict_by ar_name rows) names d) as [(d' & -> & -> & _)|(a & i & b & _ & _ & _ & -> & ->)]; reflexivity. }
  unfold l_select, select. destruct ids as [|i ids]; [destruct names as [|n names]|]; rewrite forget_say; [reflexivity| |]; exact G.
Qed.
Lemma bind_assoc : forall A B C (m : res A) (f : A -> res B) (g : B -> res C), (y <- (x <- m ;; f x) ;; g y) = (x <- m ;; y <- f x ;; g y).
Proof. intros A B C [a|e] f g; reflexivity. Qed.
Lemma request_same : forall d q h, forget (L_req d q h) = request_res K U au checkpw order d q h.
Proof.
  intros d q h. unfold l_request, request_res. rewrite forget_bind. destruct (export _ _) as [addr|]; [|reflexivity].
  unfold forget at 1. cbn [lw_ret snd bind]. rewrite forget_say, forget_bind, auth_same.
  destruct (authenticate K U au checkpw d q) as [[user name]|e]; [|reflexivity]. cbn [bind]. rewrite forget_say.
  destruct (rq_ids q) as [ids|]; [|reflexivity]. destruct (rq_names q) as [names|]; [|reflexivity].
  rewrite forget_bind, <- (select_same name), bind_assoc.
  destruct (forget (l_select name _ (wanted ids) (wanted names))) as [sel|e]; [|reflexivity]. cbn [bind].
  rewrite !forget_say, forget_bind. unfold l_make_ac. rewrite forget_bind, forget_of.
  destruct (make_cert K U au name q (map snd sel) h) as [c|e]; [|reflexivity]. cbn [bind]. rewrite forget_bind.
  destruct (ac_export K c FBytes true (Some (au_key au)) (lit "RSASSA-PKCS1-v1_5:SHA256")) as [c' [[b|t]|e]]; cbn [forget lw_ret lw_stop snd bind plain_stop]; [|reflexivity|reflexivity].
  rewrite !forget_say. reflexivity.
Qed.

(** ** The login *)

Hypothesis ordered : forall l, Permutation (order l) l.

Lemma find_user : forall d user name, NoDup (map us_name (d_users d)) -> In user (d_users d) -> us_name user = py_lower U name ->
  find (fun u => str_eqb (us_name u) (py_lower U name)) (d_users d) = Some user.
Proof.
  intros d user name ND I E. induction (d_users d) as [|u l IH]; [destruct I|]. cbn [map] in ND. apply NoDup_cons_iff in ND as [N1 N2].
  cbn [find]. destruct I as [->|I].
  - now rewrite E, str_eqb_refl.
  - destruct (str_eqb (us_name u) (py_lower U name)) eqn:Q; [|now apply IH]. apply str_eqb_eq in Q. exfalso. apply N1.
    rewrite Q, <- E. now apply in_map.
Qed.
Lemma find_no_user : forall d name, (forall u, In u (d_users d) -> us_name u <> py_lower U name) <->
  find (fun u => str_eqb (us_name u) (py_lower U name)) (d_users d) = None.
Proof.
  intros d name. split.
  - intros H. destruct (find _ (d_users d)) as [u|] eqn:F; [|reflexivity]. apply find_some in F as [F1 F2]. apply str_eqb_eq in F2.
    exfalso. exact (H u F1 F2).
  - intros F u I E. apply (find_none _ _ F) in I. rewrite E, str_eqb_refl in I. discriminate.
Qed.

(** What the login gives once the user is found and the texts are encoded. *)
Lemma auth_found : forall d q addr name user pw hash hl ok,
  rq_type q = 0 -> rq_username q = Some name -> find (fun u => str_eqb (us_name u) (py_lower U name)) (d_users d) = Some user ->
  compares K au q user pw hash -> checkpw pw hash = Ok ok -> noted pw hash hl ->
  L_auth d q addr =
    if ok then (hl ++ [login_rec name addr; LRec 20 (lit "Time to login: " ++ sp_login sp ++ lit " seconds.")], inl (user, name))
    else (hl ++ [LRec 20 (lit "ClientFault: Bad password for user " ++ name ++ lit " in attribute_request from " ++ addr)],
          inr (Fault (lit "Invalid credentials."))).
Proof.
  intros d q addr name user pw hash hl ok T N F [C1 C2] C HN. unfold l_authenticate. rewrite T, N, F. cbn [Z.eqb negb].
  change (utf8_encode (str_of_opt (rq_password q) ++ str_of_opt (au_pepper au)) = Ok pw) in C1.
  rewrite C1, ok_bind, C2, ok_bind.
  destruct HN as [D|r D H]; rewrite D; [rewrite ret_bind|rewrite H, ok_bind, say_bind]; rewrite C, ok_bind;
    destruct ok; rewrite ?say_bind; reflexivity.
Qed.
Lemma auth_inv : forall d q addr l x, L_auth d q addr = (l, x) ->
  match x with
  | inl (user, name) => exists pw hash hl, rq_type q = 0 /\ rq_username q = Some name /\ In user (d_users d) /\ us_name user = py_lower U name /\
      compares K au q user pw hash /\ checkpw pw hash = Ok true /\ noted pw hash hl /\
      l = hl ++ [login_rec name addr; LRec 20 (lit "Time to login: " ++ sp_login sp ++ lit " seconds.")]
  | inr (Fault t) => refusal d q addr t (request_rec addr :: l)
  | inr (Crash _) => True
  end.
Proof.
  intros d q addr l x H. unfold l_authenticate in H.
  destruct (Z.eqb_spec (rq_type q) 0) as [T|T]; cbn [negb] in H.
  2: { rewrite say_bind in H. apply lw_inj in H as [<- <-]. apply rf_type. exact T. }
  destruct (rq_username q) as [name|] eqn:N; [|apply lw_inj in H as [_ <-]; exact I].
  destruct (find _ (d_users d)) as [user|] eqn:F.
  2: { rewrite say_bind in H. apply lw_inj in H as [<- <-]. apply rf_user with (name := name); auto. now apply find_no_user. }
  apply find_some in F as [F1 F2]. apply str_eqb_eq in F2.
  destruct (utf8_encode (str_of_opt (rq_password q) ++ str_of_opt (au_pepper au))) as [pw|] eqn:C1; [|apply lw_inj in H as [_ <-]; exact I].
  destruct (utf8_encode (us_password user)) as [hash|] eqn:C2; [|apply lw_inj in H as [_ <-]; exact I].
  rewrite !ok_bind in H.
  assert (CM : compares K au q user pw hash) by (split; assumption).
  assert (HL : (exists hl, noted pw hash hl /\
                 (if debug then r <$ lw_of (hashpw pw hash);; say debug_level (lit "Hash for request is: " ++ bytes_str r) else lw_ret tt) = (hl, inl tt)) \/
               exists e, (if debug then r <$ lw_of (hashpw pw hash);; say debug_level (lit "Hash for request is: " ++ bytes_str r) else lw_ret tt) = ([], inr (Crash e))).
  { clear agrees. destruct debug eqn:D.
    - destruct (hashpw pw hash) as [r|e] eqn:HP; [|right; exists e; reflexivity]. left.
      exists [LRec 10 (lit "Hash for request is: " ++ bytes_str r)]. split; [|reflexivity]. constructor; auto.
    - left. exists []. split; [|reflexivity]. now constructor. }
  destruct HL as [(hl & HN & HL)|(e & HL)].
  2: { rewrite (bind_inr _ _ _ _ _ _ HL) in H. apply lw_inj in H as [_ <-]. exact I. }
  rewrite (bind_inl _ _ _ _ _ _ HL) in H. cbv beta in H.
  destruct (checkpw pw hash) as [[|]|e] eqn:C.
  - rewrite ok_bind, !say_bind in H. apply lw_inj in H as [<- <-]. exists pw, hash, hl. repeat split; auto.
  - rewrite ok_bind, say_bind in H. apply lw_inj in H as [<- <-]. cbn [lw_stop fst snd].
    apply (rf_password _ _ _ _ _ _ _ _ _ addr name user pw hash hl); auto.
  - apply lw_inj in H as [_ <-]. exact I.
Qed.
Lemma logged_auth : forall d q addr name user l, NoDup (map us_name (d_users d)) -> logged d q addr name user l ->
  exists l0, l = request_rec addr :: l0 ++ [LRec 20 (lit "Time to get atts: " ++ sp_get sp ++ lit " seconds.")] /\ L_auth d q addr = (l0, inl (user, name)).
Proof.
  intros d q addr name user l ND H. destruct H as [pw hash hl T N I E CM C HN].
  exists (hl ++ [login_rec name addr; LRec 20 (lit "Time to login: " ++ sp_login sp ++ lit " seconds.")]).
  split; [cbn [app]; now rewrite <- app_assoc|].
  exact (auth_found d q addr name user pw hash hl true T N (find_user d user name ND I E) CM C HN).
Qed.
Lemma auth_logged : forall d q addr name user l0, L_auth d q addr = (l0, inl (user, name)) ->
  logged d q addr name user (request_rec addr :: l0 ++ [LRec 20 (lit "Time to get atts: " ++ sp_get sp ++ lit " seconds.")]).
Proof.
  intros d q addr name user l0 H. apply auth_inv in H as (pw & hash & hl & T & N & I & E & CM & C & HN & ->).
  rewrite <- app_assoc. cbn [app]. exact (li_all _ _ _ _ _ _ _ _ _ addr name user pw hash hl T N I E CM C HN).
Qed.

(** The rest of a request after the login. *)
Definition after_login (name : str) (rows : list valued) (q : request) (h : chance) : lw issued :=
  match rq_ids q, rq_names q with
  | Some ids, Some names =>
      sel <$ l_select name rows (wanted ids) (wanted names) ;;
      _ <$ say info_level (name ++ lit " has activated the following attributes: [" ++ join (lit ", ") (map fst sel) ++ lit "]") ;;
      _ <$ say info_level (timed (lit "Time to proccess atts: ") (sp_process sp)) ;;
      r <$ l_make_ac K U au sp name q (map snd sel) h ;;
      _ <$ say info_level (timed (lit "Time make AC: ") (sp_total sp)) ;;
      _ <$ say info_level (timed (lit "Time to add attachment: ") (sp_attach sp)) ;;
      lw_ret r
  | _, _ => lw_stop (Crash EType)
  end.
Lemma request_logged : forall d q h addr name user l0, export (lit "REMOTE_ADDR") (rq_exports q) = Some addr ->
  L_auth d q addr = (l0, inl (user, name)) ->
  let rest := after_login name (order (user_atts d (us_id user))) q h in
  L_req d q h = (request_rec addr :: l0 ++ LRec 20 (lit "Time to get atts: " ++ sp_get sp ++ lit " seconds.") :: fst rest, snd rest).
Proof.
  intros d q h addr name user l0 E A rest. unfold l_request. rewrite E, ret_bind, say_bind. cbv beta.
  rewrite (bind_inl _ _ _ _ _ _ A). cbv beta iota zeta. rewrite say_bind. reflexivity.
Qed.
Lemma request_stopped : forall d q h addr l0 s, export (lit "REMOTE_ADDR") (rq_exports q) = Some addr ->
  L_auth d q addr = (l0, inr s) -> L_req d q h = (request_rec addr :: l0, inr s).
Proof.
  intros d q h addr l0 s E A. unfold l_request. rewrite E, ret_bind, say_bind. cbv beta.
  rewrite (bind_inr _ _ _ _ _ _ A). reflexivity.
Qed.
Lemma request_no_addr : forall d q h, export (lit "REMOTE_ADDR") (rq_exports q) = None -> L_req d q h = ([], inr (Crash EKey)).
Proof. intros d q h E. unfold l_request. now rewrite E. Qed.

(** Making the certificate raises no fault. *)
Lemma make_ac_log : forall name q sel h l x, l_make_ac K U au sp name q sel h = (l, x) ->
  match x with
  | inl r => l = [LRec 20 (lit "AC generation time: " ++ sp_make sp ++ lit " seconds.");
                  LRec 20 (lit "AC Byte Encoded Size: " ++ str_of_Z (Z.of_nat (List.length (is_data r))) ++ lit " bytes.")]
  | inr (Fault _) => False
  | inr (Crash _) => l = []
  end.
Proof.
  intros name q sel h l x H. unfold l_make_ac in H.
  destruct (make_cert K U au name q sel h) as [c|e]; [|apply lw_inj in H as [<- <-]; reflexivity]. rewrite ok_bind in H.
  destruct (ac_export K c FBytes true (Some (au_key au)) (lit "RSASSA-PKCS1-v1_5:SHA256")) as [c' [[b|t]|e]];
    [|apply lw_inj in H as [<- <-]; reflexivity|apply lw_inj in H as [<- <-]; reflexivity].
  rewrite ret_bind, !say_bind in H. apply lw_inj in H as [<- <-]. reflexivity.
Qed.

Lemma get_some : forall key rows i, dict_get i (dict_by key rows) <> None <-> exists p, In p rows /\ key (fst p) = i.
Proof.
  intros key rows i. split.
  - intros H. destruct (dict_get i (dict_by key rows)) as [p|] eqn:G; [|congruence].
    apply by_get in G as (l1 & l2 & -> & E & _). exists p. split; [apply in_elt|exact E].
  - intros (p & I & E) G. exact (proj1 (by_get_none key rows i) G p I E).
Qed.
Lemma get_assigned : forall d uid key i, dict_get i (dict_by key (order (user_atts d uid))) <> None <-> exists a v, assigned d uid a v /\ key a = i.
Proof.
  intros d uid key i. rewrite get_some. split.
  - intros ([a v] & I & E). exists a, v. split; [now apply (rows_assigned order ordered)|exact E].
  - intros (a & v & A & E). exists (a, v). split; [now apply (rows_assigned order ordered)|exact E].
Qed.
Lemma get_not_assigned : forall d uid key i, dict_get i (dict_by key (order (user_atts d uid))) = None <-> ~ exists a v, assigned d uid a v /\ key a = i.
Proof.
  intros d uid key i. rewrite <- get_assigned. destruct (dict_get i _); split; intros H; [discriminate|exfalso; apply H; discriminate|congruence|reflexivity].
Qed.

(** A request with something to select. *)
Lemma select_some : forall name rows ids names, ids ++ names <> [] ->
  l_select name rows ids names =
    (_ <$ say debug_level (name ++ lit " has requested a subset or their attributes.") ;;
     acc <$ l_take_ids name (dict_by ar_id rows) ids [] ;; l_take_names name (dict_by ar_name rows) names acc).
Proof. intros name rows [|i ids] [|n names] H; solve [reflexivity | exfalso; now apply H]. Qed.

Lemma select_refused : forall d q name user ids names l x, rq_ids q = Some ids -> rq_names q = Some names ->
  l_select name (order (user_atts d (us_id user))) (wanted ids) (wanted names) = (l, x) ->
  match x with
  | inl _ => l = [LRec 10 (name ++ (if is_nil (wanted ids ++ wanted names) then lit " has requested all attributes." else lit " has requested a subset or their attributes."))]
  | inr (Fault t) => forall addr l0, logged d q addr name user l0 -> refusal d q addr t (l0 ++ l)
  | inr (Crash _) => False
  end.
Proof.
  intros d q name user ids names l x I N H.
  destruct (wanted ids ++ wanted names) as [|w ws] eqn:W.
  { apply app_eq_nil in W as [W1 W2]. rewrite W1, W2 in H. unfold l_select in H. rewrite say_bind in H. apply lw_inj in H as [<- <-]. reflexivity. }
  rewrite select_some in H by (rewrite W; discriminate). rewrite say_bind in H. cbv beta in H.
  destruct (take_ids_log name (dict_by ar_id (order (user_atts d (us_id user)))) (wanted ids) []) as [(acc & L & _ & A)|(a & i & b & E & G & A & _ & L)].
  - rewrite L in H. unfold lw_bind at 1 2 in H. cbn [app] in H.
    destruct (take_names_log name (dict_by ar_name (order (user_atts d (us_id user)))) (wanted names) acc) as [(acc' & L' & _ & A')|(a & i & b & E & G & A' & _ & L')]; rewrite L' in H.
    + apply lw_inj in H as [<- <-]. reflexivity.
    + apply lw_inj in H as [<- <-]. intros addr l0 LI.
      apply (rf_name _ _ _ _ _ _ _ _ _ addr name user ids names i l0 LI I N).
      * intros j J. apply get_assigned. apply A. apply wanted_spec. now rewrite <- I.
      * apply missing_wanted. exists a, b. split; [exact E|]. split; [now apply get_not_assigned in G|].
        intros t T. now apply get_assigned, A'.
  - rewrite (bind_inr _ _ _ _ _ _ L) in H. apply lw_inj in H as [<- <-]. intros addr l0 LI.
    apply (rf_id _ _ _ _ _ _ _ _ _ addr name user ids names i l0 LI I N). apply missing_wanted. exists a, b.
    split; [exact E|]. split; [now apply get_not_assigned in G|]. intros t T. now apply get_assigned, A.
Qed.

(** The rest of a request, by its outcome. *)
Lemma after_log : forall d q h name user l x, after_login name (order (user_atts d (us_id user))) q h = (l, x) ->
  match x with
  | inl r => exists ids names sel, rq_ids q = Some ids /\ rq_names q = Some names /\
      l_select name (order (user_atts d (us_id user))) (wanted ids) (wanted names) =
        ([LRec 10 (name ++ (if is_nil (wanted ids ++ wanted names) then lit " has requested all attributes." else lit " has requested a subset or their attributes."))], inl sel) /\
      snd (l_make_ac K U au sp name q (map snd sel) h) = inl r /\
      l = [LRec 10 (name ++ (if is_nil (wanted ids ++ wanted names) then lit " has requested all attributes." else lit " has requested a subset or their attributes."));
           LRec 20 (name ++ lit " has activated the following attributes: [" ++ join (lit ", ") (map fst sel) ++ lit "]");
           LRec 20 (lit "Time to proccess atts: " ++ sp_process sp ++ lit " seconds.");
           LRec 20 (lit "AC generation time: " ++ sp_make sp ++ lit " seconds.");
           LRec 20 (lit "AC Byte Encoded Size: " ++ str_of_Z (Z.of_nat (List.length (is_data r))) ++ lit " bytes.");
           LRec 20 (lit "Time make AC: " ++ sp_total sp ++ lit " seconds.");
           LRec 20 (lit "Time to add attachment: " ++ sp_attach sp ++ lit " seconds.")]
  | inr (Fault t) => forall addr l0, logged d q addr name user l0 -> refusal d q addr t (l0 ++ l)
  | inr (Crash _) => True
  end.
Proof.
  intros d q h name user l x H. unfold after_login in H.
  destruct (rq_ids q) as [ids|] eqn:I; [|apply lw_inj in H as [_ <-]; exact Logic.I].
  destruct (rq_names q) as [names|] eqn:N; [|apply lw_inj in H as [_ <-]; exact Logic.I].
  destruct (l_select name (order (user_atts d (us_id user))) (wanted ids) (wanted names)) as [ls xs] eqn:S.
  pose proof (select_refused d q name user ids names ls xs I N S) as R. destruct xs as [sel|[t|e]]; [|apply lw_inj in H as [<- <-]; exact R|destruct R].
  unfold lw_bind at 1 in H. rewrite !say_bind in H. cbv beta in H.
  destruct (l_make_ac K U au sp name q (map snd sel) h) as [lm xm] eqn:M. pose proof (make_ac_log _ _ _ _ _ _ M) as RM.
  destruct xm as [r|[t|e]]; [|destruct RM|].
  - rewrite (bind_inl _ _ _ _ _ _ eq_refl), !say_bind in H. apply lw_inj in H as [<- <-]. cbn [lw_ret fst snd].
    subst ls lm. exists ids, names, sel. split; [reflexivity|]. split; [reflexivity|]. split; [exact S|].
    split; [now rewrite M|]. reflexivity.
  - rewrite (bind_inr _ _ _ _ _ _ eq_refl) in H. apply lw_inj in H as [_ <-]. exact Logic.I.
Qed.
End WithCrypto.
