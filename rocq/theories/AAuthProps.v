(** * AAuthProps: theorems about the attribute authority (C50-C54, C68-C70) *)

From Coq Require Import NArith ZArith List Bool Permutation Lia String.
From Verif Require Import PyBase LexProofs Struct BytesProofs AttCert CertSpec CertProofs CertProofs2 CertProofs3 CertProps CertProps2
  PAuth PAuthSpec AAuth AAuthSpec AAuthProofs.
Import ListNotations.
Open Scope Z_scope.

(** ** A concrete authority, database and request *)

Definition ex_au : authority toy :=
  Authority toy (lit "Authority") (lit "/aauth/1") (lit "http://localhost:80/rev") (lit "http://localhost:80/") (Some (lit "pepper")) 3600 7%N [7]%N 2048.
Definition ex_users : adb :=
  ADB [AttRow (lit "/a/age") (lit "age") (Some AInt); AttRow (lit "/a/role") (lit "role") (Some AString);
       AttRow (lit "/b/role") (lit "role") (Some AString)]
      [UserRow 1 (lit "alice") (lit "secretpepper"); UserRow 2 (lit "bob") (lit "hiddenpepper")]
      [Assign 1 (lit "/a/age") (Some (lit "42")); Assign 1 (lit "/a/role") (Some (lit "chief")); Assign 1 (lit "/b/role") None;
       Assign 2 (lit "/a/age") (Some (lit "17"))].
Definition ex_checkpw (p h : bytes) : res bool := Ok (bytes_eqb p h).
Definition ex_request (name pass : str) (ids names : list (option str)) (addr : str) : request :=
  Request 0 (Some name) (Some pass) [9]%N (lit "RSA") 2048 (Some ids) (Some names) [(lit "REMOTE_ADDR", addr)].
Definition ex_chance : chance :=
  Chance 300 1000 1001 (Tm 1970 1 1 0 16 41 3 1 0) (lit "Thursday") (lit "January").
Definition ex_answer (q : request) : list (str * bytes) * res issued :=
  attribute_request toy ascii_only ex_au ex_checkpw (fun l => l) [] ex_users q ex_chance.

(** ** Successful requests *)

Section Requests.
Variable K : crypto.
Variable U : unicode.
Variable au : authority K.
Variable checkpw : bytes -> bytes -> res bool.
Variable order : list valued -> list valued.

Lemma authenticate_sound : forall d q user name, authenticate K U au checkpw d q = Ok (user, name) ->
  authenticated K U checkpw au d q user name.
Proof.
  intros d q user name H. unfold authenticate in H. destruct (rq_type q =? 0) eqn:T; cbn [negb] in H; [|discriminate].
  apply Z.eqb_eq in T. destruct (rq_username q) as [n|] eqn:N; [|discriminate].
  destruct (find _ (d_users d)) as [u|] eqn:F; [|discriminate]. apply find_some in F as [F1 F2]. apply str_eqb_eq in F2.
  destruct (utf8_encode (str_of_opt (rq_password q) ++ str_of_opt (au_pepper au))) as [pw|] eqn:P; cbn [bind] in H; [|discriminate].
  destruct (utf8_encode (us_password u)) as [hash|] eqn:Hs; cbn [bind] in H; [|discriminate].
  destruct (checkpw pw hash) as [[|]|] eqn:C; cbn [bind] in H; try discriminate.
  apply Ok_inj in H. injection H as <- <-. unfold authenticated, str_of_opt in *. repeat split; auto. exists pw, hash. auto.
Qed.
(** Complete for unique user names. *)
Lemma authenticate_complete : forall d q user name, NoDup (map us_name (d_users d)) ->
  authenticated K U checkpw au d q user name -> authenticate K U au checkpw d q = Ok (user, name).
Proof.
  intros d q user name ND (T & N & I & L & pw & hash & P & H & C). unfold authenticate.
  rewrite T, N. cbn [Z.eqb negb].
  assert (F : find (fun u => str_eqb (us_name u) (py_lower U name)) (d_users d) = Some user).
  2: { rewrite F. change (utf8_encode (str_of_opt (rq_password q) ++ str_of_opt (au_pepper au)) = Ok pw) in P.
       rewrite P. cbn [bind]. rewrite H. cbn [bind]. rewrite C. reflexivity. }
  - clear - ND I L. revert ND I. induction (d_users d) as [|u l IH]; intros ND I; [destruct I|]. cbn [find map] in *.
    apply NoDup_cons_iff in ND as [N1 N2]. destruct (str_eqb (us_name u) (py_lower U name)) eqn:E.
    + destruct I as [->|I]; [reflexivity|]. exfalso. apply str_eqb_eq in E. apply N1. rewrite E, <- L. now apply in_map.
    + destruct I as [->|I]; [|auto]. apply str_eqb_false in E. congruence.
Qed.

Lemma request_inv : forall d q h r, request_res K U au checkpw order d q h = Ok r <->
  exists addr user name ids names sel c c' b, export (lit "REMOTE_ADDR") (rq_exports q) = Some addr /\
    authenticate K U au checkpw d q = Ok (user, name) /\ rq_ids q = Some ids /\ rq_names q = Some names /\
    select (order (user_atts d (us_id user))) (wanted ids) (wanted names) = Ok sel /\
    make_cert K U au name q sel h = Ok c /\
    ac_export K c FBytes true (Some (au_key au)) (lit "RSASSA-PKCS1-v1_5:SHA256") = (c', Ok (OutBytes b)) /\
    r = Issued c' b 1 0 (file_name (ch_serial h)).
Proof.
  intros d q h r. unfold request_res. split.
  - destruct (export _ _) as [addr|] eqn:E; cbn [bind]; [|discriminate].
    destruct (authenticate K U au checkpw d q) as [[user name]|] eqn:A; cbn [bind]; [|discriminate].
    destruct (rq_ids q) as [ids|] eqn:I; [|discriminate]. destruct (rq_names q) as [names|] eqn:N; [|discriminate].
    destruct (select _ _ _) as [sel|] eqn:S; cbn [bind]; [|discriminate].
    destruct (make_cert K U au name q sel h) as [c|] eqn:C; cbn [bind]; [|discriminate].
    destruct (ac_export _ _ _ _ _ _) as [c' [[b|s]|e]] eqn:X; try discriminate. intros H. apply Ok_inj in H.
    exists addr, user, name, ids, names, sel, c, c', b. repeat split; auto.
  - intros (addr & user & name & ids & names & sel & c & c' & b & -> & A & -> & -> & S & C & X & ->).
    cbn [bind]. rewrite A. cbn [bind]. rewrite S. cbn [bind]. rewrite C. cbn [bind]. rewrite X. reflexivity.
Qed.
Lemma answer_inv : forall dir d q h dir' r, attribute_request K U au checkpw order dir d q h = (dir', Ok r) <->
  request_res K U au checkpw order d q h = Ok r /\ dir' = dict_set (is_file r) (is_data r) dir.
Proof.
  intros dir d q h dir' r. unfold attribute_request. destruct (request_res K U au checkpw order d q h) as [x|e].
  - split; [intros E; apply out_inj in E as [<- <-]; auto|]. intros [H ->]. apply Ok_inj in H. now subst.
  - split; [discriminate|intros []; discriminate].
Qed.

(** ** C50: authentication *)

Theorem C50_authenticated : forall dir d q h dir' r,
  attribute_request K U au checkpw order dir d q h = (dir', Ok r) ->
  exists user name, authenticated K U checkpw au d q user name.
Proof.
  intros dir d q h dir' r H. apply answer_inv in H as [H _].
  apply request_inv in H as (addr & user & name & ids & names & sel & c & c' & b & _ & A & _).
  exists user, name. now apply authenticate_sound.
Qed.

(** Without success no file is written. *)
Theorem C50_nothing_written : forall dir d q h dir' e,
  attribute_request K U au checkpw order dir d q h = (dir', Err e) -> dir' = dir.
Proof.
  intros dir d q h dir' e H. unfold attribute_request in H. destruct (request_res K U au checkpw order d q h); [discriminate|]. now injection H.
Qed.

(** An unknown user and a wrong password (that bcrypt can check) get the same answer. *)
Theorem C50_refused : forall dir d q h addr name,
  export (lit "REMOTE_ADDR") (rq_exports q) = Some addr -> rq_type q = 0 -> rq_username q = Some name ->
  (forall u, In u (d_users d) -> us_name u = py_lower U name ->
     exists pw hash, utf8_encode ((match rq_password q with Some p => p | None => lit "None" end) ++
                                  (match au_pepper au with Some p => p | None => lit "None" end)) = Ok pw /\
       utf8_encode (us_password u) = Ok hash /\ checkpw pw hash = Ok false) ->
  attribute_request K U au checkpw order dir d q h = (dir, Err EClientFault).
Proof.
  intros dir d q h addr name E T N H. unfold attribute_request, request_res. rewrite E. cbn [bind].
  unfold authenticate. rewrite T, N. cbn [Z.eqb negb]. destruct (find _ (d_users d)) as [u|] eqn:F; [|reflexivity].
  apply find_some in F as [F1 F2]. apply str_eqb_eq in F2. destruct (H u F1 F2) as (pw & hash & P & Hs & C).
  change (utf8_encode (str_of_opt (rq_password q) ++ str_of_opt (au_pepper au)) = Ok pw) in P. rewrite P. cbn [bind]. rewrite Hs. cbn [bind]. rewrite C. reflexivity.
Qed.
Theorem C50_type : forall dir d q h addr,
  export (lit "REMOTE_ADDR") (rq_exports q) = Some addr -> rq_type q <> 0 ->
  attribute_request K U au checkpw order dir d q h = (dir, Err EClientFault).
Proof.
  intros dir d q h addr E T. unfold attribute_request, request_res. rewrite E. cbn [bind].
  unfold authenticate. apply Z.eqb_neq in T. now rewrite T.
Qed.

(** A request without password is one with the password None. *)
Theorem C50_no_password : forall dir d q h, rq_password q = None ->
  attribute_request K U au checkpw order dir d q h =
  attribute_request K U au checkpw order dir d
    (Request (rq_type q) (rq_username q) (Some (lit "None")) (rq_key q) (rq_cipher q) (rq_size q) (rq_ids q) (rq_names q) (rq_exports q)) h.
Proof. intros dir d [t u p k ci sz i n x] h H. cbn [rq_password] in H. subst p. reflexivity. Qed.

(** ** C51: attributes *)

Hypothesis ordered : forall l, Permutation (order l) l.

Lemma rows_unique : forall d uid, tables_ok d -> NoDup (ids_of (order (user_atts d uid))).
Proof.
  intros d uid T. apply (Permutation_NoDup (l := ids_of (user_atts d uid))); [|now apply user_atts_unique].
  apply Permutation_map. symmetry. apply ordered.
Qed.
Lemma rows_assigned : forall d uid a v, In (a, v) (order (user_atts d uid)) <-> assigned d uid a v.
Proof.
  intros d uid a v. rewrite <- user_atts_In. split; apply Permutation_in; [|symmetry]; apply ordered.
Qed.
Lemma user_att_spec : forall p a, user_att p = Ok a <-> exists t, ar_type (fst p) = Some t /\ a = stands_for p t.
Proof.
  intros [[i n ty] v] a. unfold user_att, stands_for, make_att, str_of_opt. cbn [fst snd ar_type ar_id ar_name]. destruct ty as [t|].
  - split.
    + intros H. apply Ok_inj in H. exists t. split; [reflexivity|]. rewrite <- H. f_equal; [|destruct n; reflexivity].
      destruct v as [[|x v]|]; reflexivity.
    + intros (t' & [= <-] & ->). f_equal. f_equal; [|destruct n; reflexivity]. destruct v as [[|x v]|]; reflexivity.
  - split; [discriminate|]. intros (t & Q & _). discriminate.
Qed.
Lemma mapM_spec : forall A B (f : A -> res B) l m, mapM f l = Ok m <-> Forall2 (fun x y => f x = Ok y) l m.
Proof.
  intros A B f. induction l as [|x l IH]; intros m; cbn [mapM].
  - split; [intros H; apply Ok_inj in H; subst; constructor|]. intros H. inversion H. reflexivity.
  - split.
    + destruct (f x) as [y|] eqn:F; cbn [bind]; [|discriminate]. destruct (mapM f l) as [ys|] eqn:M; cbn [bind]; [|discriminate].
      intros H. apply Ok_inj in H. subst m. constructor; [exact F|]. now apply IH.
    + intros H. inversion H as [|? y ? ys F R]; subst. rewrite F. cbn [bind]. apply IH in R. now rewrite R.
Qed.
Lemma cert_inv : forall name q sel h c, make_cert K U au name q sel h = Ok c ->
  exists cons us, connection_atts K U au q h = Ok cons /\ Forall2 (fun p a => exists t, ar_type (fst p) = Some t /\ a = stands_for p t) sel us /\
    c = Cert (issuer_of K au) (Holder (rq_key q) (rq_cipher q ++ lit "[" ++ str_of_Z (rq_size q) ++ lit "]") (au_uri au ++ lit "/user/" ++ name) (Some name))
           (Info 1 (ch_serial h) (ch_issued h)) (Some (us ++ cons)) (Rev (ch_issued h) (ch_issued h + au_length au) (Some (au_rev_url au)) None)
           (Some (Del None)) None None.
Proof.
  intros name q sel h c H. unfold make_cert in H. destruct (connection_atts K U au q h) as [cons|]; cbn [bind] in H; [|discriminate].
  destruct (mapM user_att sel) as [us|] eqn:M; cbn [bind] in H; [|discriminate]. apply Ok_inj in H. exists cons, us.
  split; [reflexivity|]. split; [|auto]. apply mapM_spec in M. clear - M. induction M as [|x y l m E _ IH]; constructor; auto. now apply user_att_spec.
Qed.

Definition connection_id (i : str) : Prop := exists n, i = lit "/attribute/connection/" ++ n.
Lemma con_id : forall n t v, connection_id (at_id (con n t v)).
Proof. intros n t v. exists n. reflexivity. Qed.
Lemma numbered_con : forall base prefix ps i l, numbered U base prefix i ps = Ok l -> Forall (fun a => connection_id (at_id a)) l.
Proof.
  intros base prefix. induction ps as [|p ps IH]; intros i l H; cbn [numbered] in H; [apply Ok_inj in H; subst; constructor|].
  destruct (int_base U base p); cbn [bind] in H; [|discriminate]. destruct (numbered _ _ _ _ ps) eqn:E; cbn [bind] in H; [|discriminate].
  apply Ok_inj in H. subst l. constructor; [apply con_id|]. eauto.
Qed.
Lemma connection_con : forall q h l, connection_atts K U au q h = Ok l -> Forall (fun a => connection_id (at_id a)) l.
Proof.
  intros q h l H. unfold connection_atts in H.
  destruct (match export _ _ with Some addr => address_atts U addr | None => Ok [] end) as [a|] eqn:A; cbn [bind] in H; [|discriminate].
  apply Ok_inj in H. subst l. apply Forall_app. split; [|apply Forall_app; split].
  - unfold export_atts. apply Forall_forall. intros x I. apply in_flat_map in I as ([v n] & _ & I).
    cbv beta iota in I. destruct (export (lit v) (rq_exports q)) as [w|]; [|destruct I].
    destruct I as [<-|[]]. apply con_id.
  - destruct (export _ _) as [addr|]; [|apply Ok_inj in A; subst; constructor]. unfold address_atts in A.
    destruct (has_char 46 addr); [|destruct (has_char 58 addr); [|apply Ok_inj in A; subst; constructor]].
    + destruct (numbered _ _ _ _ _) eqn:E; cbn [bind] in A; [|discriminate]. apply Ok_inj in A. subst a.
      repeat (constructor; [apply con_id|]). eapply numbered_con; eauto.
    + destruct (numbered _ _ _ _ _) eqn:E; cbn [bind] in A; [|discriminate]. apply Ok_inj in A. subst a.
      repeat (constructor; [apply con_id|]). eapply numbered_con; eauto.
  - unfold other_atts. apply Forall_app. split; [repeat (constructor; [apply con_id|]); constructor|]. apply Forall_app. split.
    + destruct (0 <=? _); repeat (constructor; [apply con_id|]); constructor.
    + repeat (constructor; [apply con_id|]); constructor.
Qed.

Theorem C51_exact : forall dir d q h dir' r, tables_ok d ->
  attribute_request K U au checkpw order dir d q h = (dir', Ok r) ->
  exists user name rows sel us cons, authenticated K U checkpw au d q user name /\
    (forall a v, In (a, v) rows <-> assigned d (us_id user) a v) /\
    all_assigned rows q /\ selection rows q sel /\
    c_atts (is_cert r) = Some (us ++ cons) /\
    Forall2 (fun p a => exists t, ar_type (fst p) = Some t /\ a = stands_for p t) sel us /\
    Forall (fun a => connection_id (at_id a)) cons.
Proof.
  intros dir d q h dir' r T H. apply answer_inv in H as [H _].
  apply request_inv in H as (addr & user & name & ids & names & sel & c & c' & b & _ & A & I & N & S & C & X & ->).
  pose proof (select_spec _ q ids names (rows_unique d (us_id user) T) I N) as P. rewrite S in P. destruct P as [P1 P2].
  apply cert_inv in C as (cons & us & C1 & C2 & ->). apply sign_export in X as (w & s & _ & _ & -> & _); [|discriminate].
  exists user, name, (order (user_atts d (us_id user))), sel, us, cons. split; [now apply authenticate_sound|].
  split; [intros; apply rows_assigned|]. split; [exact P2|]. split; [exact P1|]. split; [reflexivity|]. split; [exact C2|].
  exact (connection_con _ _ _ C1).
Qed.

(** Asking for something that is not assigned is refused. *)
Theorem C51_refused : forall dir d q h addr user name ids names, tables_ok d -> NoDup (map us_name (d_users d)) ->
  export (lit "REMOTE_ADDR") (rq_exports q) = Some addr -> rq_ids q = Some ids -> rq_names q = Some names ->
  authenticated K U checkpw au d q user name ->
  (exists i, asks (rq_ids q) i /\ forall a v, assigned d (us_id user) a v -> ar_id a <> i) \/
  (exists n, asks (rq_names q) n /\ forall a v, assigned d (us_id user) a v -> ar_name a <> n) ->
  attribute_request K U au checkpw order dir d q h = (dir, Err EClientFault).
Proof.
  intros dir d q h addr user name ids names T ND E I N A B. unfold attribute_request, request_res. rewrite E. cbn [bind].
  rewrite (authenticate_complete d q user name ND A). cbn [bind]. rewrite I, N.
  pose proof (select_spec _ q ids names (rows_unique d (us_id user) T) I N) as P.
  destruct (select _ _ _) as [sel|e]; cbn [bind].
  - destruct P as [_ [P1 P2]]. exfalso. destruct B as [(i & Q & H)|(n & Q & H)].
    + destruct (P1 i Q) as ([a v] & R & F). apply rows_assigned in R. exact (H a v R F).
    + destruct (P2 n Q) as ([a v] & R & F). apply rows_assigned in R. exact (H a v R F).
  - destruct P as [-> _]. reflexivity.
Qed.

(** ** C52: content and validity *)

Theorem C52_content : forall dir d q h dir' r,
  attribute_request K U au checkpw order dir d q h = (dir', Ok r) ->
  exists name cons us, rq_username q = Some name /\
    c_issuer (is_cert r) = Issuer (au_pub au) (lit "RSA[" ++ str_of_Z (au_bits au) ++ lit "]") (au_uri au) (Some (au_name au)) (Some (au_url au)) /\
    ho_uid (c_holder (is_cert r)) = au_uri au ++ lit "/user/" ++ name /\ ho_name (c_holder (is_cert r)) = Some name /\
    ho_key (c_holder (is_cert r)) = rq_key q /\
    c_info (is_cert r) = Info 1 (ch_serial h) (ch_issued h) /\
    rv_after (c_rev (is_cert r)) = ch_issued h /\ rv_before (c_rev (is_cert r)) = ch_issued h + au_length au /\
    c_atts (is_cert r) = Some (us ++ cons) /\
    In (con (lit "session_id") AInt (str_of_Z (ch_serial h))) cons /\
    In (con (lit "session_length") AInt (str_of_Z (au_length au))) cons /\
    In (con (lit "con_time") AInt (str_of_Z (ch_time h))) cons /\
    (exists addr, export (lit "REMOTE_ADDR") (rq_exports q) = Some addr /\ In (con (lit "remote_addr") AString addr) cons) /\
    is_version r = 1 /\ is_format r = 0.
Proof.
  intros dir d q h dir' r H. apply answer_inv in H as [H _].
  apply request_inv in H as (addr & user & name & ids & names & sel & c & c' & b & E & A & I & N & S & C & X & ->).
  apply cert_inv in C as (cons & us & C1 & C2 & ->). apply sign_export in X as (w & s & _ & _ & -> & _); [|discriminate].
  apply authenticate_sound in A as (_ & A & _). exists name, cons, us.
  cbn [is_cert with_sig c_issuer c_holder c_info c_rev c_atts ho_uid ho_name ho_key rv_after rv_before is_version is_format].
  unfold connection_atts in C1. destruct (match export _ _ with Some addr => address_atts U addr | None => Ok [] end) as [a|]; cbn [bind] in C1; [|discriminate].
  apply Ok_inj in C1. subst cons. assert (L : forall x, In x (other_atts K au q h) -> In x (export_atts (rq_exports q) ++ a ++ other_atts K au q h)).
  { intros x J. apply in_app_iff. right. apply in_app_iff. now right. }
  repeat match goal with |- _ /\ _ => split end; auto.
  - apply L. unfold other_atts. apply in_app_iff. right. apply in_app_iff. right. cbn [In]. tauto.
  - apply L. unfold other_atts. apply in_app_iff. right. apply in_app_iff. right. cbn [In]. tauto.
  - apply L. unfold other_atts. apply in_app_iff. left. cbn [In]. tauto.
  - exists addr. split; [exact E|]. apply in_app_iff. left. unfold export_atts. cbn [flat_map]. rewrite E. now left.
Qed.

(** Everything that goes into the certificate is ASCII text. *)
Record plain (d : adb) (q : request) (h : chance) : Prop := {
  pl_name : ascii (au_name au); pl_uri : ascii (au_uri au); pl_rev : ascii (au_rev_url au); pl_url : ascii (au_url au);
  pl_pub : octets (au_pub au); pl_key : octets (rq_key q); pl_cipher : ascii (rq_cipher q);
  pl_user : if_some ascii (rq_username q); pl_exports : forall k v, In (k, v) (rq_exports q) -> ascii v;
  pl_weekday : ascii (ch_weekday h); pl_month : ascii (ch_month h);
  pl_atts : forall a, In a (d_atts d) -> ascii (ar_id a) /\ ascii (ar_name a);
  pl_values : forall s, In s (d_assigns d) -> if_some ascii (as_value s)
}.

Lemma ascii_lit : forall s, is_ascii s = true -> ascii s.
Proof.
  intros s H. unfold is_ascii in H. rewrite forallb_forall in H. apply Forall_forall. intros c I. specialize (H c I).
  now apply N.ltb_lt in H.
Qed.
Lemma ascii_app : forall a b, ascii a -> ascii b -> ascii (a ++ b).
Proof. intros a b A B. apply Forall_app. auto. Qed.
Lemma dec_ascii : forall f n acc, ascii acc -> ascii (dec_digits f n acc).
Proof.
  induction f as [|f IH]; intros n acc A; cbn [dec_digits]; [exact A|].
  assert (G : ascii ((48 + n mod 10)%N :: acc)).
  { constructor; [|exact A]. pose proof (N.mod_lt n 10 ltac:(discriminate)). lia. }
  destruct (n <? 10)%N; auto.
Qed.
Lemma Z_ascii : forall z, ascii (str_of_Z z).
Proof.
  intros z. unfold str_of_Z. pose proof (dec_ascii (S (N.to_nat (N.log2 (Z.abs_N z)))) (Z.abs_N z) [] (Forall_nil _)) as G.
  destruct (z <? 0); [|exact G]. constructor; [lia|exact G].
Qed.
Lemma b64_ascii : forall b, octets b -> ascii (b64encode b).
Proof. intros b H. apply ascii_lit. now apply b64_text. Qed.

Definition att_ascii (a : ac_att) : Prop :=
  ascii (at_id a) /\ opt_ascii (at_value a) /\ opt_ascii (at_name a) /\ at_extra a = None.
Lemma non_empty_ascii : forall s, ascii s -> opt_ascii (non_empty (Some s)).
Proof. intros [|c s] H; [exact I|exact H]. Qed.
Lemma con_ascii : forall n t v, ascii n -> ascii v -> att_ascii (con n t v).
Proof.
  intros n t v A B. unfold att_ascii, con, make_att. cbn [at_id at_value at_name at_extra]. split.
  - apply ascii_app; [now apply ascii_lit|exact A].
  - repeat split; apply non_empty_ascii; auto.
Qed.
Lemma numbered_ascii : forall base prefix ps i l, ascii prefix -> numbered U base prefix i ps = Ok l -> Forall att_ascii l.
Proof.
  intros base prefix. induction ps as [|p ps IH]; intros i l A H; cbn [numbered] in H; [apply Ok_inj in H; subst; constructor|].
  destruct (int_base U base p); cbn [bind] in H; [|discriminate]. destruct (numbered _ _ _ _ ps) eqn:E; cbn [bind] in H; [|discriminate].
  apply Ok_inj in H. subst l. constructor; [|eauto]. apply con_ascii; [apply ascii_app; [exact A|]|]; apply Z_ascii.
Qed.
Ltac asc := first [assumption | apply Z_ascii | (apply b64_ascii; assumption) | (apply ascii_lit; reflexivity)].
Lemma export_ascii : forall n x v, (forall k v, In (k, v) x -> ascii v) -> export n x = Some v -> ascii v.
Proof.
  intros n x v A E. unfold export in E. destruct (find _ x) as [[k w]|] eqn:F; [|discriminate]. injection E as <-.
  apply find_some in F as [F _]. exact (A k w F).
Qed.
Lemma connection_ascii : forall d q h l, plain d q h -> connection_atts K U au q h = Ok l -> Forall att_ascii l.
Proof.
  intros d q h l [] H. unfold connection_atts in H.
  destruct (match export _ _ with Some addr => address_atts U addr | None => Ok [] end) as [a|] eqn:A; cbn [bind] in H; [|discriminate].
  apply Ok_inj in H. subst l. apply Forall_app. split; [|apply Forall_app; split].
  - unfold export_atts. apply Forall_forall. intros x I. apply in_flat_map in I as ([v n] & J & I).
    cbv beta iota in I. destruct (export (lit v) (rq_exports q)) as [w|] eqn:E; [|destruct I]. destruct I as [<-|[]]. apply con_ascii; [|exact (export_ascii _ _ _ pl_exports0 E)].
    cbn [In] in J. destruct J as [[= <- <-]|[[= <- <-]|[[= <- <-]|[[= <- <-]|[]]]]]; apply ascii_lit; reflexivity.
  - destruct (export _ _) as [addr|]; [|apply Ok_inj in A; subst; constructor]. unfold address_atts in A.
    destruct (has_char 46 addr); [|destruct (has_char 58 addr); [|apply Ok_inj in A; subst; constructor]].
    + destruct (numbered _ _ _ _ _) eqn:E; cbn [bind] in A; [|discriminate]. apply Ok_inj in A. subst a.
      repeat (constructor; [apply con_ascii; asc|]). eapply numbered_ascii; [|exact E]. asc.
    + destruct (numbered _ _ _ _ _) eqn:E; cbn [bind] in A; [|discriminate]. apply Ok_inj in A. subst a.
      repeat (constructor; [apply con_ascii; asc|]). eapply numbered_ascii; [|exact E]. asc.
  - unfold other_atts. apply Forall_app. split; [repeat (constructor; [apply con_ascii; asc|]); constructor|]. apply Forall_app. split.
    + destruct (0 <=? _); [|constructor]. constructor; [|constructor]. apply con_ascii; [asc|]. destruct (_ =? 1); asc.
    + repeat (constructor; [apply con_ascii; asc|]); constructor.
Qed.
Lemma cert_plain : forall d q h name sel c uid, plain d q h -> rq_username q = Some name ->
  (forall p, In p sel -> In p (order (user_atts d uid))) -> make_cert K U au name q sel h = Ok c ->
  body_ascii c /\ cert_octets c.
Proof.
  intros d q h name sel c uid P N S H. pose proof P as P'. destruct P'. rewrite N in pl_user0. cbn [if_some] in pl_user0.
  apply cert_inv in H as (cons & us & C1 & C2 & ->). pose proof (connection_ascii d q h cons P C1) as AC.
  assert (AU : Forall att_ascii us).
  { clear C1. induction C2 as [|[a v] x l m (t & T & E) _ IH]; [constructor|]. subst x. constructor.
    - assert (G : assigned d uid a v) by (apply rows_assigned; apply S; now left). destruct G as [G1 G2].
      destruct (pl_atts0 a G1) as [A1 A2]. specialize (pl_values0 _ G2). cbn [as_value] in pl_values0.
      unfold att_ascii, stands_for. cbn [at_id at_value at_name at_extra fst snd]. split; [exact A1|]. split; [|split; [|reflexivity]].
      + destruct v as [[|y v]|]; cbn [opt_ascii if_some]; [exact I|exact pl_values0|]. now apply ascii_lit.
      + destruct (ar_name a); [exact I|exact A2].
    - apply IH. intros p J. apply S. now right. }
  assert (AA : Forall att_ascii (us ++ cons)) by (apply Forall_app; auto).
  split.
  - unfold body_ascii, issuer_of. cbn [c_issuer c_holder c_rev c_atts c_exts is_algo is_uid is_name is_url ho_algo ho_uid ho_name rv_url if_some opt_ascii].
    repeat match goal with |- _ /\ _ => split end; try asc; try exact I.
    + apply ascii_app; [asc|apply ascii_app; asc].
    + apply ascii_app; [asc|apply ascii_app; [asc|apply ascii_app; asc]].
    + apply ascii_app; [asc|apply ascii_app; asc].
    + eapply Forall_impl; [|exact AA]. intros a (A1 & A2 & A3 & _). auto.
  - unfold cert_octets, issuer_of. cbn [c_issuer c_holder c_rev c_atts c_del c_exts c_sig is_key ho_key rv_extra de_extra if_some].
    repeat match goal with |- _ /\ _ => split end; try assumption; try exact I.
    eapply Forall_impl; [|exact AA]. intros a (_ & _ & _ & A). now rewrite A.
Qed.
Lemma issued_parts : forall dir d q h dir' r, tables_ok d -> attribute_request K U au checkpw order dir d q h = (dir', Ok r) ->
  exists user name sel c, authenticated K U checkpw au d q user name /\ (forall p, In p sel -> In p (order (user_atts d (us_id user)))) /\
    make_cert K U au name q sel h = Ok c /\
    ac_export K c FBytes true (Some (au_key au)) (lit "RSASSA-PKCS1-v1_5:SHA256") = (is_cert r, Ok (OutBytes (is_data r))).
Proof.
  intros dir d q h dir' r T H. apply answer_inv in H as [H _].
  apply request_inv in H as (addr & user & name & ids & names & sel & c & c' & b & _ & A & I & N & S & C & X & ->).
  exists user, name, sel, c. split; [now apply authenticate_sound|]. split; [|auto].
  pose proof (select_spec _ q ids names (rows_unique d (us_id user) T) I N) as P. rewrite S in P. destruct P as [[_ P] _].
  intros p J. now apply P in J.
Qed.

(** The bytes returned import with verification; the result is the issued certificate with
    empty texts and delegation rules replaced by absent ones. *)
Theorem C52_verifies : forall dir d q h dir' r pk, tables_ok d -> plain d q h ->
  key_pair K (au_key au) pk -> k_import K (au_pub au) = Ok pk ->
  attribute_request K U au checkpw order dir d q h = (dir', Ok r) ->
  exists s, c_sig (is_cert r) = Some s /\ ac_import K (InArray (is_data r)) FBytes true = Ok (with_sig (normal (is_cert r)) (Some s)).
Proof.
  intros dir d q h dir' r pk T P KP KI H.
  destruct (issued_parts _ _ _ _ _ _ T H) as (user & name & sel & c & (_ & N & _) & S & C & X).
  destruct (cert_plain d q h name sel c (us_id user) P N S C) as [BA CO].
  assert (KI' : k_import K (is_key (c_issuer c)) = Ok pk).
  { apply cert_inv in C as (cons & us & _ & _ & ->). exact KI. }
  assert (TK : text_kept (lit "RSASSA-PKCS1-v1_5:SHA256")) by (split; [discriminate|now apply ascii_lit]).
  destruct (C39_ascii K c FBytes (au_key au) pk _ (is_cert r) _ (InArray (is_data r)) ltac:(discriminate) BA CO TK KP KI' X) as (s & E & _ & M).
  - reflexivity.
  - exists s. rewrite E. split; [reflexivity|]. rewrite M. f_equal. destruct c. reflexivity.
Qed.

(** ** C68: the two authorities together *)

(** The policy authority accepts an issued certificate within its lifetime if it trusts the
    issuer's uid. *)
Theorem C68_accepted : forall dir d q h dir' r pk rows now, tables_ok d -> plain d q h ->
  key_pair K (au_key au) pk -> k_import K (au_pub au) = Ok pk ->
  attribute_request K U au checkpw order dir d q h = (dir', Ok r) ->
  trusted rows (au_uri au) -> ch_issued h < now < ch_issued h + au_length au ->
  exists c, accepted K rows (Raw (is_data r) (is_version r) (is_format r)) now c /\
    ho_uid (c_holder c) = ho_uid (c_holder (is_cert r)) /\ c_info c = c_info (is_cert r) /\ rv_before (c_rev c) = ch_issued h + au_length au.
Proof.
  intros dir d q h dir' r pk rows now T P KP KI H TR W.
  destruct (C52_verifies dir d q h dir' r pk T P KP KI H) as (s & _ & M).
  destruct (C52_content dir d q h dir' r H) as (name & cons & us & _ & CI & CU & _ & _ & CF & CA & CB & _ & _ & _ & _ & _ & CV & CT).
  apply C38_verified in M as [M V]. eexists. split; [|split; [|split]].
  - unfold accepted. cbn [rw_version rw_format rw_data]. rewrite CV, CT. split; [reflexivity|].
    split; [exists FBytes; split; [constructor|exact M]|]. split; [exact V|].
    destruct (is_cert r) as [is ho inf atts rv de exts sg]. cbn [c_issuer c_rev] in CI, CA, CB. cbn [normal with_sig c_issuer c_rev is_uid rv_after rv_before].
    rewrite CA, CB. split; [|exact W]. now rewrite CI.
  - destruct (is_cert r). reflexivity.
  - destruct (is_cert r). reflexivity.
  - destruct (is_cert r). exact CB.
Qed.

(** ** C53: comparing issued certificates *)

Lemma no_equal : forall (id : ac_att -> str) l m x y, In x l -> In y l -> id x = id y -> x <> y ->
  forallb (fun z => match_first id att_eqb z m) l = false.
Proof.
  intros id l m x y X Y E D. destruct (forallb _ l) eqn:F; [|reflexivity]. exfalso. apply D. rewrite forallb_forall in F.
  pose proof (F x X) as FX. pose proof (F y Y) as FY. clear - E FX FY. induction m as [|z m IH]; cbn [match_first] in *; [discriminate|].
  rewrite E in FX. destruct (str_eqb (id y) (id z)); [|exact (IH FX FY)]. apply att_eqb_eq in FX, FY. congruence.
Qed.
Lemma twice_never_equal : forall c x y other, if_some (fun l => In x l /\ In y l) (c_atts c) -> c_atts c <> None ->
  at_id x = at_id y -> x <> y -> cert_eq c other <> Ok true.
Proof.
  intros c x y other I S E D H. unfold cert_eq in H. destruct (_ && _ && _ && _); [|discriminate].
  destruct (negb (del_same _ _)); [discriminate|]. destruct (negb (sig_same _ _)); [discriminate|].
  destruct (c_atts c) as [l|]; [|congruence]. cbn [if_some] in I. destruct I as [X Y]. destruct (c_atts other) as [m|]; cbn [sets_eq bind] in H; [|discriminate].
  rewrite (no_equal at_id l m x y X Y E D), andb_false_r in H. discriminate.
Qed.
Definition weekdays (q : request) (h : chance) : ac_att * ac_att :=
  (con (lit "con_time_weekday") AString (ch_weekday h), con (lit "con_time_weekday") AInt (str_of_Z (tm_wday (ch_tm h)))).
Lemma weekdays_in : forall q h l, connection_atts K U au q h = Ok l -> In (fst (weekdays q h)) l /\ In (snd (weekdays q h)) l.
Proof.
  intros q h l C. unfold connection_atts in C. destruct (match export _ _ with Some addr => address_atts U addr | None => Ok [] end) as [a|]; cbn [bind] in C; [|discriminate].
  apply Ok_inj in C. subst l. cbn [weekdays fst snd]. split; apply in_app_iff; right; apply in_app_iff; right; unfold other_atts;
    apply in_app_iff; left; cbn [In]; tauto.
Qed.

(** An issued certificate equals no certificate, not even itself; so does the imported copy. *)
Theorem C53_never_equal : forall dir d q h dir' r other,
  attribute_request K U au checkpw order dir d q h = (dir', Ok r) ->
  cert_eq (is_cert r) other <> Ok true /\ cert_eq (is_cert r) (is_cert r) = Ok false.
Proof.
  intros dir d q h dir' r other H. apply answer_inv in H as [H _].
  apply request_inv in H as (addr & user & name & ids & names & sel & c & c' & b & _ & A & I & N & S & C & X & ->).
  apply cert_inv in C as (cons & us & C1 & C2 & ->). apply sign_export in X as (w & s & _ & _ & -> & _); [|discriminate].
  destruct (weekdays_in _ _ _ C1) as [W1 W2]. cbn [is_cert].
  match goal with |- cert_eq ?c _ <> _ /\ _ => assert (G : forall o, cert_eq c o <> Ok true) end.
  { intros o. apply (twice_never_equal _ (fst (weekdays q h)) (snd (weekdays q h))).
    - cbn [with_sig c_atts if_some]. split; apply in_app_iff; now right.
    - discriminate.
    - reflexivity.
    - intros D. apply (f_equal at_type) in D. discriminate. }
  split; [apply G|]. match goal with |- cert_eq ?c _ = _ => specialize (G c); unfold cert_eq in G |- * end.
  destruct (_ && _ && _ && _); [|reflexivity]. destruct (negb (del_same _ _)); [reflexivity|]. destruct (negb (sig_same _ _)); [reflexivity|].
  cbn [with_sig c_atts c_exts sets_eq bind] in G |- *. destruct (negb _); [reflexivity|]. congruence.
Qed.
Theorem C53_imported : forall dir d q h dir' r pk other, tables_ok d -> plain d q h ->
  key_pair K (au_key au) pk -> k_import K (au_pub au) = Ok pk ->
  attribute_request K U au checkpw order dir d q h = (dir', Ok r) ->
  exists c, ac_import K (InArray (is_data r)) FBytes true = Ok c /\ cert_eq c other <> Ok true.
Proof.
  intros dir d q h dir' r pk other T P KP KI H.
  destruct (C52_verifies dir d q h dir' r pk T P KP KI H) as (sg & _ & M). eexists. split; [exact M|].
  apply answer_inv in H as [H _].
  apply request_inv in H as (addr & user & name & ids & names & sel & c & c' & b & _ & A & I & N & S & C & X & ->).
  apply cert_inv in C as (cons & us & C1 & C2 & ->). apply sign_export in X as (w & s & _ & _ & -> & _); [|discriminate].
  destruct (weekdays_in _ _ _ C1) as [W1 W2]. set (f := fun a => Att (at_id a) (at_type a) (absent (at_value a)) (absent (at_name a)) (absent (at_extra a))).
  apply (twice_never_equal _ (f (fst (weekdays q h))) (f (snd (weekdays q h)))).
  - cbn [is_cert with_sig normal c_atts if_some]. split; apply (in_map f); apply in_app_iff; now right.
  - discriminate.
  - reflexivity.
  - intros D. apply (f_equal at_type) in D. discriminate.
Qed.

(** ** C54: addresses *)

Hypothesis DO : decimals_ok U.

(** Making the connection attributes raises ValueError exactly for the other addresses. *)
Theorem C54_exact : forall q h addr, export (lit "REMOTE_ADDR") (rq_exports q) = Some addr ->
  ((exists l, connection_atts K U au q h = Ok l) <-> address_ok U addr) /\
  (connection_atts K U au q h = Err EValue <-> ~ address_ok U addr).
Proof.
  intros q h addr E. unfold connection_atts. rewrite E. pose proof (address_spec U addr DO) as S.
  destruct (address_atts U addr) as [a|e] eqn:A; cbn [bind].
  - assert (O : address_ok U addr) by (apply S; eauto). split; [|split; [discriminate|tauto]]. split; [auto|eauto].
  - apply address_error in A. subst e. assert (O : ~ address_ok U addr) by (intros O; apply S in O as [l O]; discriminate).
    split; [|tauto]. split; [intros [l Q]; discriminate|tauto].
Qed.
Theorem C54_request : forall dir d q h addr user name ids names, tables_ok d -> NoDup (map us_name (d_users d)) ->
  export (lit "REMOTE_ADDR") (rq_exports q) = Some addr -> rq_ids q = Some ids -> rq_names q = Some names ->
  authenticated K U checkpw au d q user name ->
  (forall i, asks (rq_ids q) i -> exists a v, assigned d (us_id user) a v /\ ar_id a = i) ->
  (forall n, asks (rq_names q) n -> exists a v, assigned d (us_id user) a v /\ ar_name a = n) ->
  ~ address_ok U addr -> attribute_request K U au checkpw order dir d q h = (dir, Err EValue).
Proof.
  intros dir d q h addr user name ids names T ND E I N A AI AN B. unfold attribute_request, request_res. rewrite E. cbn [bind].
  rewrite (authenticate_complete d q user name ND A). cbn [bind]. rewrite I, N.
  pose proof (select_spec _ q ids names (rows_unique d (us_id user) T) I N) as P.
  destruct (select _ _ _) as [sel|e]; cbn [bind].
  - unfold make_cert. replace (connection_atts K U au q h) with (@Err (list ac_att) EValue); [reflexivity|].
    symmetry. now apply (C54_exact q h addr E).
  - destruct P as [_ P]. exfalso. apply P. split.
    + intros i Q. destruct (AI i Q) as (a & v & Q1 & Q2). exists (a, v). split; [now apply rows_assigned|exact Q2].
    + intros n Q. destruct (AN n Q) as (a & v & Q1 & Q2). exists (a, v). split; [now apply rows_assigned|exact Q2].
Qed.

Lemma literal_chars : forall base s z c, int_literal U base s z -> In c s -> (c < 128)%N ->
  c = 32%N \/ (9 <= c <= 13)%N \/ c = 43%N \/ c = 45%N \/ c = 95%N \/ (48 <= c <= 57)%N \/ (65 <= c <= 90)%N \/ (97 <= c <= 122)%N.
Proof.
  intros base s z c (lead & sg & neg & px & ds & n & trail & -> & L & T & S & P & N & _) I A.
  assert (B : forall l, Forall (blank U) l -> In c l -> c = 32%N \/ (9 <= c <= 13)%N).
  { intros l F J. rewrite Forall_forall in F. specialize (F c J). inversion F; subst; auto. lia. }
  assert (D : forall b x, digit_char U b c x -> (48 <= c <= 57)%N \/ (65 <= c <= 90)%N \/ (97 <= c <= 122)%N).
  { intros b x D. inversion D; subst; lia. }
  rewrite !in_app_iff in I. destruct I as [I|[I|[I|[I|I]]]].
  - destruct (B _ L I); tauto.
  - destruct S; cbn [In] in I; intuition.
  - destruct P as [|x y _ Z X|x y _ Z X]; cbn [In] in I; [tauto| |];
      destruct I as [<-|[<-|I]]; try (apply D in Z; tauto); try (destruct I as [<-|[]]; tauto); try tauto; destruct X; lia.
  - assert (G : c = 95%N \/ (48 <= c <= 57)%N \/ (65 <= c <= 90)%N \/ (97 <= c <= 122)%N); [|tauto].
    clear - I A D N. induction N as [x d X|s n x d N IH X|s n x d N IH X].
    + destruct I as [->|[]]. right. eauto.
    + apply in_app_iff in I as [I|[->|[]]]; [auto|]. right. eauto.
    + apply in_app_iff in I as [I|[<-|[->|[]]]]; [auto|auto|]. right. eauto.
  - destruct (B _ T I); tauto.
Qed.
Lemma literal_not_empty : forall base z, ~ int_literal U base [] z.
Proof.
  intros base z (lead & sg & neg & px & ds & n & trail & E & _ & _ & _ & _ & N & _).
  destruct (numeral_head _ _ _ _ N) as (c & s & d & -> & _). destruct lead, sg, px; discriminate.
Qed.

(** Every address with both separators (IPv4 in IPv6), with an empty part (::), with a
    character that is in no number. *)
Theorem C54_mixed : forall addr, In 46%N addr -> In 58%N addr -> ~ address_ok U addr.
Proof.
  intros addr D C [H _]. specialize (H D _ (split_parts 46 addr)). pose proof (split_parts 46 addr) as P.
  revert H. generalize P. clear P. generalize (split_on 46 addr) as l. intros l P F.
  assert (G : exists w, In w l /\ In 58%N w).
  { clear - P C. induction P as [w W|w r l W P IH]; [exists w; split; [now left|exact C]|].
    apply in_app_iff in C as [C|[C|C]]; [exists w; split; [now left|exact C]|discriminate|].
    destruct (IH C) as (x & X & Y). exists x. split; [now right|exact Y]. }
  destruct G as (w & W & I). rewrite Forall_forall in F. destruct (F w W) as [z Z].
  pose proof (literal_chars _ _ _ _ Z I ltac:(reflexivity)). lia.
Qed.
Theorem C54_compressed : forall a b, ~ In 46%N (a ++ 58%N :: 58%N :: b) -> ~ address_ok U (a ++ 58%N :: 58%N :: b).
Proof.
  intros a b D [_ H]. assert (C : In 58%N (a ++ 58%N :: 58%N :: b)) by (apply in_app_iff; right; now left).
  specialize (H D C _ (split_parts 58 _)). rewrite Forall_forall in H. destruct (H []) as [z Z]; [|exact (literal_not_empty _ _ Z)].
  clear. assert (G : In [] (tl (split_on 58 (a ++ 58%N :: 58%N :: b)))).
  - induction a as [|x a IH]; cbn [app split_on]; [cbn [N.eqb Pos.eqb tl]; now left|].
    destruct (x =? 58)%N; cbn [tl]; destruct (split_on 58 (a ++ 58%N :: 58%N :: b)) as [|w l]; cbn [tl] in *; try tauto. now right.
  - destruct (split_on 58 _); [destruct G|now right].
Qed.
End Requests.
Print Assumptions C50_authenticated.
Print Assumptions C50_nothing_written.
Print Assumptions C50_refused.
Print Assumptions C50_type.
Print Assumptions C50_no_password.
Print Assumptions C51_exact.
Print Assumptions C51_refused.
Print Assumptions C52_content.
Print Assumptions C52_verifies.
Print Assumptions C68_accepted.
Print Assumptions C53_never_equal.
Print Assumptions C53_imported.
Print Assumptions C54_exact.
Print Assumptions C54_request.
Print Assumptions C54_mixed.
Print Assumptions C54_compressed.

(** ** Examples *)

Example ex_granted :
  let r := ex_answer (ex_request (lit "Alice") (lit "secret") [Some (lit "/a/age"); Some (lit "*"); None] [Some (lit "role")] (lit "10.0.0.1")) in
  map fst (fst r) = [lit "12C.ac"] /\
  exists i, snd r = Ok i /\ option_map (fun l => map at_id (firstn 2 l)) (c_atts (is_cert i)) = Some [lit "/a/age"; lit "/b/role"].
Proof. split; [vm_compute; reflexivity|]. eexists. split; vm_compute; reflexivity. Qed.
Example ex_answers :
  map (fun q => let r := ex_answer q in (List.length (fst r), match snd r with Ok _ => None | Err e => Some e end))
    [ex_request (lit "alice") (lit "secret") [] [] (lit "10.0.0.1");
     ex_request (lit "alice") (lit "wrong") [] [] (lit "10.0.0.1");
     ex_request (lit "carol") (lit "secret") [] [] (lit "10.0.0.1");
     ex_request (lit "bob") (lit "hidden") [Some (lit "/a/role")] [] (lit "10.0.0.1");
     ex_request (lit "bob") (lit "hidden") [] [Some (lit "role")] (lit "10.0.0.1");
     ex_request (lit "bob") (lit "hidden") [] [] (lit "fe80::1");
     ex_request (lit "bob") (lit "hidden") [] [] (lit "fe80:0:1");
     ex_request (lit "bob") (lit "hidden") [] [] (lit "::ffff:10.0.0.1")] =
  [(1, None); (0, Some EClientFault); (0, Some EClientFault); (0, Some EClientFault); (0, Some EClientFault);
   (0, Some EValue); (1, None); (0, Some EValue)]%nat.
Proof. vm_compute. reflexivity. Qed.

(** ** More about addresses *)

(** Dotted addresses of decimal digits, and IPv6 addresses with all groups written out. *)
Definition dec_part (p : str) : Prop := p <> [] /\ Forall (fun c => (48 <= c <= 57)%N) p.
Definition hex_part (p : str) : Prop := p <> [] /\ Forall (fun c => (48 <= c <= 57)%N \/ (65 <= c <= 70)%N \/ (97 <= c <= 102)%N) p.
Lemma digits_literal : forall U base p, p <> [] -> Forall (fun c => exists d, digit_char U base c d) p -> exists z, int_literal U base p z.
Proof.
  intros U base p NE F.
  assert (G : exists n, numeral U base p n).
  { induction p as [|x p IH] using rev_ind; [congruence|]. apply Forall_app in F as [F1 F2]. inversion F2 as [|? ? [d D] _]; subst.
    destruct p as [|y p]; [exists d; now constructor|]. destruct IH as [n N]; [discriminate|exact F1|]. eexists. eapply nu_more; eauto. }
  destruct G as [n N]. exists (Z.of_N n). exists [], [], false, [], p, n, []. rewrite app_nil_r. repeat split; auto; constructor.
Qed.
Theorem C54_dotted : forall U addr l, parts 46 addr l -> Forall dec_part l -> In 46%N addr -> address_ok U addr.
Proof.
  intros U addr l P F D. split; [|tauto]. intros _ l' P'. apply parts_split in P, P'. subst l l'.
  eapply Forall_impl; [|exact F]. intros p [NE Q]. apply digits_literal; [exact NE|]. eapply Forall_impl; [|exact Q].
  intros c C. cbv beta in C. exists (c - 48)%N. assert (G : digit_char U 10 (48 + (c - 48)) (c - 48)) by (apply dg_ascii; lia).
  now replace (48 + (c - 48))%N with c in G by lia.
Qed.
Print Assumptions C54_dotted.
Theorem C54_groups : forall U addr l, parts 58 addr l -> Forall hex_part l -> ~ In 46%N addr -> address_ok U addr.
Proof.
  intros U addr l P F D. split; [tauto|]. intros _ _ l' P'. apply parts_split in P, P'. subst l l'.
  eapply Forall_impl; [|exact F]. intros p [NE Q]. apply digits_literal; [exact NE|]. eapply Forall_impl; [|exact Q].
  intros c [C|[C|C]].
  - exists (c - 48)%N. assert (G : digit_char U 16 (48 + (c - 48)) (c - 48)) by (apply dg_ascii; lia). now replace (48 + (c - 48))%N with c in G by lia.
  - exists (c - 55)%N. assert (G : digit_char U 16 (55 + (c - 55)) (c - 55)) by (apply dg_upper; lia). now replace (55 + (c - 55))%N with c in G by lia.
  - exists (c - 87)%N. assert (G : digit_char U 16 (87 + (c - 87)) (c - 87)) by (apply dg_lower; lia). now replace (87 + (c - 87))%N with c in G by lia.
Qed.
Print Assumptions C54_groups.
Example ex_parts : parts 46 (lit "10.0.0.1") [lit "10"; lit "0"; lit "0"; lit "1"] /\ Forall dec_part [lit "10"; lit "0"; lit "0"; lit "1"].
Proof.
  split; [exact (split_parts 46 (lit "10.0.0.1"))|].
  repeat constructor; try discriminate.
Qed.

(** Not every number that is accepted is an octet. *)
Theorem C54_range_refuted : exists l, address_atts ascii_only (lit "-1. 9_9 .300") = Ok l /\
  In (con (lit "remote_addr_v4_oct0") AInt (lit "-1")) l /\ In (con (lit "remote_addr_v4_oct1") AInt (lit "99")) l /\
  In (con (lit "remote_addr_v4_oct2") AInt (lit "300")) l.
Proof.
  eexists. split; [vm_compute; reflexivity|]. split; [right; right; left|split; [right; right; right; left|right; right; right; right; left]]; vm_compute; reflexivity.
Qed.
Print Assumptions C54_range_refuted.

(** ** C51: attributes of the same name *)

(** One of two assigned attributes of the requested name is not in the certificate. *)
Theorem C51_same_name_refuted : exists d q h dir' r user a v,
  attribute_request toy ascii_only ex_au ex_checkpw (fun l => l) [] d q h = (dir', Ok r) /\
  authenticated toy ascii_only ex_checkpw ex_au d q user (lit "alice") /\ assigned d (us_id user) a v /\ asks (rq_names q) (ar_name a) /\
  forall l, c_atts (is_cert r) = Some l -> ~ In (ar_id a) (map at_id l).
Proof.
  pose (q := ex_request (lit "alice") (lit "secret") [] [Some (lit "role")] (lit "10.0.0.1")).
  destruct (ex_answer q) as [dir' [r|e]] eqn:E; [|vm_compute in E; discriminate].
  exists ex_users, q, ex_chance, dir', r, (UserRow 1 (lit "alice") (lit "secretpepper")), (AttRow (lit "/a/role") (lit "role") (Some AString)), (Some (lit "chief")).
  split; [exact E|]. split; [|split; [|split]].
  - apply authenticate_sound. vm_compute. reflexivity.
  - split; vm_compute; tauto.
  - exists [Some (lit "role")]. split; [reflexivity|]. split; [now left|]. split; discriminate.
  - assert (G : option_map (fun l => existsb (str_eqb (lit "/a/role")) (map at_id l)) (match ex_answer q with (_, Ok r) => c_atts (is_cert r) | _ => None end) = Some false)
      by (vm_compute; reflexivity).
    rewrite E in G. intros l L I. rewrite L in G. cbn [option_map] in G. injection G as G. apply not_true_iff_false in G. apply G.
    apply existsb_exists. exists (lit "/a/role"). split; [exact I|apply str_eqb_refl].
Qed.
Print Assumptions C51_same_name_refuted.

(** ** C52, C68: example *)

Lemma ex_plain : plain toy ex_au ex_users (ex_request (lit "Alice") (lit "secret") [Some (lit "/a/age")] [] (lit "10.0.0.1")) ex_chance.
Proof.
  assert (L : forall s, is_ascii s = true -> ascii s) by exact ascii_lit.
  split; try (apply L; vm_compute; reflexivity); cbn [ex_au au_pub ex_request rq_key rq_username rq_exports if_some].
  - repeat constructor.
  - repeat constructor.
  - intros k v [[= <- <-]|[]]. apply L. vm_compute. reflexivity.
  - intros a [<-|[<-|[<-|[]]]]; split; apply L; vm_compute; reflexivity.
  - intros s [<-|[<-|[<-|[<-|[]]]]]; cbn [as_value if_some]; try exact I; apply L; vm_compute; reflexivity.
Qed.
Lemma ex_tables : tables_ok ex_users.
Proof.
  split; cbn [ex_users d_atts d_users d_assigns map ar_id us_id as_user as_att]; repeat constructor; cbn [In]; intros H;
    repeat (destruct H as [H|H]; [discriminate|]); exact H.
Qed.
Example ex_imports : exists dir' r c,
  ex_answer (ex_request (lit "Alice") (lit "secret") [Some (lit "/a/age")] [] (lit "10.0.0.1")) = (dir', Ok r) /\
  key_pair toy (au_key ex_au) (7%N : pub toy) /\ k_import toy (au_pub ex_au) = Ok (7%N : pub toy) /\
  ac_import toy (InArray (is_data r)) FBytes true = Ok c /\ ho_uid (c_holder c) = lit "/aauth/1/user/Alice".
Proof.
  set (q := ex_request _ _ _ _ _). destruct (ex_answer q) as [dir' [r|e]] eqn:E; [|vm_compute in E; discriminate].
  assert (KI : k_import toy (au_pub ex_au) = Ok (7%N : pub toy)) by reflexivity.
  destruct (C52_verifies toy ascii_only ex_au ex_checkpw (fun l => l) (fun l => Permutation_refl l) [] ex_users q ex_chance dir' r (7%N : pub toy) ex_tables ex_plain toy_pair KI E) as (s & _ & M).
  exists dir', r. eexists. split; [reflexivity|]. split; [exact toy_pair|]. split; [exact KI|]. split; [exact M|].
  destruct (C52_content _ _ _ _ _ _ _ _ _ _ _ E) as (name & cons & us & N & _ & HU & _). destruct (is_cert r) as [x1 x2 x3 x4 x5 x6 x7 x8]. cbn [c_holder with_sig normal ho_uid] in *.
  rewrite HU. injection N as <-. reflexivity.
Qed.

(** ** C69: files *)

Fixpoint unhex (s : str) (n : N) : N :=
  match s with [] => n | c :: r => unhex r (n * 16 + (if (c <? 58)%N then c - 48 else c - 55)) end.
Lemma unhex_digits : forall f n acc m, (n < 16 ^ N.of_nat f)%N -> f <> O -> unhex (hex_digits f n acc) 0 = m -> unhex acc n = m.
Proof.
  induction f as [|f IH]; intros n acc m B F H; [congruence|]. cbn [hex_digits] in H.
  assert (V : forall d, (d < 16)%N -> (if (hex_digit d <? 58)%N then hex_digit d - 48 else hex_digit d - 55)%N = d).
  { intros d D. unfold hex_digit. destruct (N.ltb_spec d 10).
    - replace (48 + d <? 58)%N with true; [lia|]. symmetry. apply N.ltb_lt. lia.
    - replace (55 + d <? 58)%N with false; [lia|]. symmetry. apply N.ltb_ge. lia. }
  pose proof (N.mod_lt n 16 ltac:(discriminate)) as M. destruct (N.ltb_spec n 16) as [L|L].
  - cbn [unhex] in H. rewrite (V _ M), (N.mod_small n 16 L) in H. exact H.
  - destruct f as [|f].
    + change (16 ^ N.of_nat 1)%N with 16%N in B. lia.
    + apply IH in H; [|apply N.div_lt_upper_bound; [discriminate|] |discriminate].
      * cbn [unhex] in H. rewrite (V _ M) in H. rewrite <- H. f_equal. rewrite (N.div_mod n 16) at 1 by discriminate. lia.
      * rewrite <- N.pow_succ_r'. now rewrite <- Nat2N.inj_succ.
Qed.
Theorem C69_names : forall a b, 0 <= a -> 0 <= b -> file_name a = file_name b -> a = b.
Proof.
  assert (G : forall a, 0 <= a -> exists s, file_name a = s ++ lit ".ac" /\ unhex s 0 = Z.to_N a).
  { intros a A. unfold file_name. set (n := Z.to_N a). set (f := S _). eexists. split; [reflexivity|].
    assert (U : unhex (hex_digits f n []) 0 = n).
    { symmetry. apply (unhex_digits f n []); [|unfold f; discriminate|reflexivity]. unfold f. rewrite Nat2N.inj_succ, N2Nat.id.
      destruct (N.eq_dec n 0) as [->|N0]; [reflexivity|]. pose proof (N.log2_spec n ltac:(lia)) as [_ L].
      eapply N.lt_le_trans; [exact L|]. apply N.pow_le_mono_l. lia. }
    destruct (hex_digits f n []) as [|x [|y l]]; exact U. }
  intros a b A B E. destruct (G a A) as (s & Es & S). destruct (G b B) as (t & Et & T). rewrite Es, Et in E.
  apply app_inv_tail in E. subst t. rewrite S in T. lia.
Qed.
Print Assumptions C69_names.

Section Files.
Variable K : crypto.
Variable U : unicode.
Variable au : authority K.
Variable checkpw : bytes -> bytes -> res bool.
Variable order : list valued -> list valued.
(** Requests on changing databases: the directory and the certificates issued, latest first. *)
Inductive served : list (str * bytes) -> list issued -> Prop :=
| sv_none : served [] []
| sv_some : forall dir l d q h dir' r, served dir l -> attribute_request K U au checkpw order dir d q h = (dir', Ok r) ->
    0 <= ch_serial h -> served dir' (r :: l)
| sv_error : forall dir l d q h dir' e, served dir l -> attribute_request K U au checkpw order dir d q h = (dir', Err e) -> served dir' l.
Definition serial (r : issued) : Z := i_serial (c_info (is_cert r)).

Lemma issued_file : forall dir d q h dir' r, attribute_request K U au checkpw order dir d q h = (dir', Ok r) -> 0 <= ch_serial h ->
  is_file r = file_name (serial r) /\ 0 <= serial r /\ dir' = dict_set (is_file r) (is_data r) dir.
Proof.
  intros dir d q h dir' r H S. pose proof (C52_content _ _ _ _ _ _ _ _ _ _ _ H) as (name & cons & us & _ & _ & _ & _ & _ & I & _).
  apply answer_inv in H as [H ->].
  apply request_inv in H as (addr & user & nm & ids & names & sel & c & c' & b & _ & _ & _ & _ & _ & _ & _ & ->).
  cbn [is_file is_cert] in *. unfold serial. cbn [is_cert]. rewrite I. auto.
Qed.
Theorem C69_files : forall dir l, served dir l ->
  NoDup (map fst dir) /\
  (forall f b, dict_get f dir = Some b -> exists r, In r l /\ is_data r = b /\ f = file_name (serial r)) /\
  (forall later r earlier, l = later ++ r :: earlier -> (forall x, In x later -> serial x <> serial r) ->
     dict_get (file_name (serial r)) dir = Some (is_data r)).
Proof.
  assert (P : forall dir l, served dir l -> forall r, In r l -> 0 <= serial r).
  { intros dir l H. induction H as [|dir l d q h dir' r0 H IH A S|dir l d q h dir' e H IH A]; intros r I; [destruct I| |eauto].
    destruct I as [<-|I]; [|eauto]. now apply issued_file in A as (_ & A & _). }
  intros dir l H. induction H as [|dir l d q h dir' r0 H (IN & IS & IC) A S|dir l d q h dir' e H IH A].
  - split; [constructor|]. split; [discriminate|]. intros [|x later] r earlier Q; discriminate.
  - destruct (issued_file _ _ _ _ _ _ A S) as (F & S0 & ->). split; [now apply set_keys|]. split.
    + intros f b G. apply get_In in G; [|now apply set_keys]. apply (set_In _ _ _ _ _ _ IN) in G as [[-> ->]|[_ G]].
      * exists r0. split; [now left|]. auto.
      * apply (get_In _ _ _ _ IN) in G. destruct (IS f b G) as (r & I & Q). exists r. split; [now right|exact Q].
    + intros later r earlier Q D. apply get_In; [now apply set_keys|]. apply (set_In _ _ _ _ _ _ IN). destruct later as [|x later].
      * injection Q as -> ->. left. auto.
      * injection Q as -> ->. right. rewrite F. assert (I : In r (later ++ r :: earlier)) by (apply in_app_iff; right; now left). split.
        -- intros E. apply C69_names in E; [|exact (P _ _ H r I)|exact S0]. apply (D x); [now left|auto].
        -- apply (get_In _ _ _ _ IN). apply (IC later r earlier eq_refl). intros y Y. apply D. now right.
  - apply C50_nothing_written in A. now subst dir'.
Qed.

(** ** C70: holders *)

Theorem C70_same_user : forall d q1 q2 h1 h2 r1 r2 dir1 dir2 dir1' dir2' user1 user2 name1 name2,
  attribute_request K U au checkpw order dir1 d q1 h1 = (dir1', Ok r1) ->
  attribute_request K U au checkpw order dir2 d q2 h2 = (dir2', Ok r2) ->
  NoDup (map us_name (d_users d)) ->
  authenticated K U checkpw au d q1 user1 name1 -> authenticated K U checkpw au d q2 user2 name2 ->
  ho_uid (c_holder (is_cert r1)) = ho_uid (c_holder (is_cert r2)) -> user1 = user2.
Proof.
  intros d q1 q2 h1 h2 r1 r2 dir1 dir2 dir1' dir2' user1 user2 name1 name2 A1 A2 ND (_ & N1 & I1 & L1 & _) (_ & N2 & I2 & L2 & _) E.
  destruct (C52_content _ _ _ _ _ _ _ _ _ _ _ A1) as (n1 & _ & _ & M1 & _ & H1 & _).
  destruct (C52_content _ _ _ _ _ _ _ _ _ _ _ A2) as (n2 & _ & _ & M2 & _ & H2 & _).
  rewrite H1, H2 in E. apply app_inv_head in E. apply app_inv_head in E. assert (name1 = name2) by congruence. subst name2.
  assert (Q : us_name user1 = us_name user2) by congruence. clear - ND I1 I2 Q.
  induction (d_users d) as [|u l IH]; [destruct I1|]. cbn [map] in ND. apply NoDup_cons_iff in ND as [N1 N2].
  destruct I1 as [->|I1], I2 as [->|I2]; auto.
  - exfalso. apply N1. rewrite Q. now apply in_map.
  - exfalso. apply N1. rewrite <- Q. now apply in_map.
Qed.
End Files.
Print Assumptions C69_files.
Print Assumptions C70_same_user.

(** Two spellings of a name, one user, two holders. *)
Theorem C70_spelling_refuted : exists d q1 q2 h dir1 dir2 r1 r2 user n1 n2,
  attribute_request toy ascii_only ex_au ex_checkpw (fun l => l) [] d q1 h = (dir1, Ok r1) /\
  attribute_request toy ascii_only ex_au ex_checkpw (fun l => l) [] d q2 h = (dir2, Ok r2) /\
  authenticated toy ascii_only ex_checkpw ex_au d q1 user n1 /\ authenticated toy ascii_only ex_checkpw ex_au d q2 user n2 /\
  ho_uid (c_holder (is_cert r1)) <> ho_uid (c_holder (is_cert r2)).
Proof.
  pose (q := fun n => ex_request n (lit "secret") [] [] (lit "10.0.0.1")).
  destruct (ex_answer (q (lit "alice"))) as [dir1 [r1|e]] eqn:E1; [|vm_compute in E1; discriminate].
  destruct (ex_answer (q (lit "ALICE"))) as [dir2 [r2|e]] eqn:E2; [|vm_compute in E2; discriminate].
  exists ex_users, (q (lit "alice")), (q (lit "ALICE")), ex_chance, dir1, dir2, r1, r2, (UserRow 1 (lit "alice") (lit "secretpepper")), (lit "alice"), (lit "ALICE").
  split; [exact E1|]. split; [exact E2|].
  split; [apply authenticate_sound; vm_compute; reflexivity|]. split; [apply authenticate_sound; vm_compute; reflexivity|].
  destruct (C52_content _ _ _ _ _ _ _ _ _ _ _ E1) as (m1 & _ & _ & M1 & _ & H1 & _).
  destruct (C52_content _ _ _ _ _ _ _ _ _ _ _ E2) as (m2 & _ & _ & M2 & _ & H2 & _).
  rewrite H1, H2. injection M1 as <-. injection M2 as <-. vm_compute. discriminate.
Qed.
Print Assumptions C70_spelling_refuted.
