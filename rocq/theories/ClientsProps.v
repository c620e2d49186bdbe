(** * ClientsProps: theorems about the clients (C93, C95) *)

From Coq Require Import NArith ZArith List Bool String Lia.
From Verif Require Import PyBase LexSpec LexProofs LexCase Struct BytesProofs AttCert CertSpec CertProofs CertProofs2 CertProps CertProps2 Config ConfigProps Logging LoggingProps
  PAuth AAuth AAuthSpec AAuthProofs AAuthProps Clients.
Import ListNotations.
Open Scope Z_scope.

(** ** Options of the clients *)

Definition client_opt (U : unicode) (F : conf_file) (sect name : string) (v : option str) : Prop :=
  conf_value U F client_defaults (lit name) (lit sect) v.

Lemma cconf_value : forall U F name sect v, file_ok F -> upper_stable U name ->
  cconf U F name sect = COk v <-> conf_value U F client_defaults name sect v.
Proof.
  intros U F name sect v FO ST. rewrite <- (C55_value U F client_defaults name sect v FO ST). unfold cconf.
  destruct (get_conf U F client_defaults name sect) as [w|e]; split; intros H; try discriminate H; injection H as <-; reflexivity.
Qed.
Lemma cbind_ok : forall A B (x : cres A) (f : A -> cres B) b, cbind x f = COk b <-> exists a, x = COk a /\ f a = COk b.
Proof.
  intros A B x f b. destruct x as [a|e]; cbn [cbind].
  - split; [intros H; now exists a|]. intros (a' & E & H). injection E as <-. exact H.
  - split; [discriminate|]. intros (a & E & _). discriminate E.
Qed.
Lemma jsonwsp_iff : forall ty, jsonwsp ty = true <-> ty = Some (lit "JSONWSP").
Proof.
  intros [t|]; cbn [jsonwsp]; [|split; discriminate]. rewrite str_eqb_eq. split; [now intros ->|]. intros H. injection H. auto.
Qed.

Section Clients.
Variable U : unicode.
Variable K : crypto.
Variable pem : prv K -> bytes.
Variable bits : prv K -> Z.
Variable conn : Type.
Notation dial := (option str -> option conn) (only parsing).
Notation client := (client K conn).

Lemma open_iff : forall (connect : dial) ty desc k, open_service conn connect ty desc = COk k <-> ty = Some (lit "JSONWSP") /\ connect desc = Some k.
Proof.
  intros connect ty desc k. unfold open_service. rewrite <- jsonwsp_iff. destruct (jsonwsp ty); [|split; [discriminate|intros [H _]; discriminate]].
  destruct (connect desc) as [c|]; split; intros H; try (discriminate || (destruct H; discriminate)).
  - injection H as <-. auto.
  - destruct H as [_ H]. injection H as <-. reflexivity.
Qed.

(** ** C93: creation and connection *)

(** A client is created exactly if the configured type is JSONWSP as written, KEY_SIZE is an
    integer, and the service answers; the configured credentials are read only without others. *)
Theorem C93_created : forall (connect : dial) F given c, file_ok F -> decimals_ok U ->
  (new_client U K conn connect F given = COk c <->
   client_opt U F "AAUTH" "CLIENT_TYPE" (Some (lit "JSONWSP")) /\ cl_type K conn c = Some (lit "JSONWSP") /\
   client_opt U F "AAUTH" "SERVICE_DESCRIPTION" (cl_desc K conn c) /\ connect (cl_desc K conn c) = Some (cl_conn K conn c) /\
   (exists s, client_opt U F "AAUTH" "KEY_SIZE" (Some s) /\ int_literal U 10 s (cl_size K conn c)) /\
   cl_last K conn c = None /\
   match given with
   | Some g => cl_cred K conn c = g
   | None => client_opt U F "AAUTH" "CRED_TYPE" (cd_type (cl_cred K conn c)) /\
             client_opt U F "AAUTH" "CRED_USER" (cd_user (cl_cred K conn c)) /\
             client_opt U F "AAUTH" "CRED_PASS" (cd_pass (cl_cred K conn c))
   end).
Proof.
  intros connect F given c FO DO. unfold new_client, client_opt. cbv zeta.
  assert (V : forall name v, upper_stable U name -> cconf U F name (lit "AAUTH") = COk v <-> conf_value U F client_defaults name (lit "AAUTH") v)
    by (intros; now apply cconf_value).
  rewrite cbind_ok. split.
  - intros (ty & T & H). apply V in T; [|reflexivity]. apply cbind_ok in H as (desc & D & H). apply V in D; [|reflexivity].
    apply cbind_ok in H as (sz & S & H). apply V in S; [|reflexivity]. apply cbind_ok in H as (z & Z & H). apply cbind_ok in H as (cred & C & H).
    apply cbind_ok in H as (k & O & H). injection H as <-. cbn [cl_type cl_desc cl_size cl_last cl_cred cl_conn].
    apply open_iff in O as [-> O]. destruct sz as [s|]; [|discriminate]. destruct (int_base U 10 s) as [z'|] eqn:I; [|discriminate]. injection Z as <-.
    apply (int_base_spec U DO) in I. split; [exact T|]. split; [reflexivity|]. split; [exact D|]. split; [exact O|]. split; [now exists s|]. split; [reflexivity|].
    destruct given as [g|]; [now injection C as <-|].
    apply cbind_ok in C as (t & C1 & C). apply cbind_ok in C as (u & C2 & C). apply cbind_ok in C as (p & C3 & C). injection C as <-.
    apply V in C1; [|reflexivity]. apply V in C2; [|reflexivity]. apply V in C3; [|reflexivity]. cbn [cd_type cd_user cd_pass]. auto.
  - intros (T & T' & D & O & (s & S & I) & L & C). exists (Some (lit "JSONWSP")). split; [now apply V|].
    apply cbind_ok. exists (cl_desc K conn c). split; [now apply V|]. apply cbind_ok. exists (Some s). split; [now apply V|].
    apply cbind_ok. exists (cl_size K conn c). split; [apply (int_base_spec U DO) in I; now rewrite I|].
    apply cbind_ok. exists (cl_cred K conn c). split.
    + destruct given as [g|]; [now rewrite C|]. destruct C as (C1 & C2 & C3). apply cbind_ok. eexists. split; [apply V; [reflexivity|exact C1]|].
      apply cbind_ok. eexists. split; [apply V; [reflexivity|exact C2]|]. apply cbind_ok. eexists. split; [apply V; [reflexivity|exact C3]|].
      now destruct (cl_cred K conn c).
    + apply cbind_ok. exists (cl_conn K conn c). split; [apply open_iff; auto|]. destruct c as [ty d z l cr k]. cbn in *. now subst.
Qed.
Theorem C93_policy_created : forall (connect : dial) F uid c, file_ok F ->
  (new_pclient U conn connect F uid = COk c <->
   client_opt U F "PAUTH" "CLIENT_TYPE" (Some (lit "JSONWSP")) /\ pc_type conn c = Some (lit "JSONWSP") /\ pc_uid conn c = uid /\
   client_opt U F "PAUTH" "SERVICE_DESCRIPTION" (pc_desc conn c) /\ connect (pc_desc conn c) = Some (pc_conn conn c)).
Proof.
  intros connect F uid c FO. unfold new_pclient, client_opt.
  assert (V : forall name v, upper_stable U name -> cconf U F name (lit "PAUTH") = COk v <-> conf_value U F client_defaults name (lit "PAUTH") v)
    by (intros; now apply cconf_value).
  rewrite cbind_ok. split.
  - intros (ty & T & H). apply V in T; [|reflexivity]. apply cbind_ok in H as (desc & D & H). apply V in D; [|reflexivity].
    apply cbind_ok in H as (k & O & H). injection H as <-. apply open_iff in O as [-> O]. cbn [pc_type pc_uid pc_desc pc_conn]. auto.
  - intros (T & T' & I & D & O). exists (Some (lit "JSONWSP")). split; [now apply V|]. apply cbind_ok. exists (pc_desc conn c). split; [now apply V|].
    apply cbind_ok. exists (pc_conn conn c). split; [apply open_iff; auto|]. destruct c as [i ty d k]. cbn in *. now subst.
Qed.

(** The calls a program makes on a client, each with what ladon, RSA.generate and the service
    do at that moment. *)
Inductive use (V : Type) : Type :=
| UUpdate (connect : dial) (url ty : option str)
| URequest (generate : Z -> res (prv K)) (net : conn -> sent -> option (reply V)) (names ids : option (list (option str))) (key : option (prv K)).
Arguments UUpdate {V}. Arguments URequest {V}.
Definition after1 {V} (c : client) (u : use V) : client :=
  match u with
  | UUpdate connect url ty => fst (update_service K conn connect url ty c)
  | URequest generate net names ids key => fst (client_request K pem bits conn generate net names ids key c)
  end.
Definition after {V} (l : list (use V)) (c : client) : client := fold_left after1 l c.
Lemma after_app : forall V (l m : list (use V)) c, after (l ++ m) c = after m (after l c).
Proof. intros. unfold after. apply fold_left_app. Qed.

(** The last of some optional values, or a first one. *)
Fixpoint latest {A} (old : option A) (l : list (option A)) : option A :=
  match l with [] => old | Some x :: r => latest (Some x) r | None :: r => latest old r end.
Definition url_of {V} (u : use V) : option str := match u with UUpdate _ url _ => url | _ => None end.
Definition type_of {V} (u : use V) : option str := match u with UUpdate _ _ ty => ty | _ => None end.
Definition urls {V} (c : client) (l : list (use V)) : option str := latest (cl_desc K conn c) (map url_of l).
Definition types {V} (c : client) (l : list (use V)) : option str := latest (cl_type K conn c) (map type_of l).
Lemma latest_or : forall A (x old : option A) l, latest (or_old x old) l = latest old (x :: l).
Proof. intros A [x|] old l; reflexivity. Qed.

Lemma request_keeps : forall V generate (net : conn -> sent -> option (reply V)) names ids key c,
  let c' := fst (client_request K pem bits conn generate net names ids key c) in
  cl_type K conn c' = cl_type K conn c /\ cl_desc K conn c' = cl_desc K conn c /\ cl_size K conn c' = cl_size K conn c /\
  cl_cred K conn c' = cl_cred K conn c /\ cl_conn K conn c' = cl_conn K conn c.
Proof.
  intros V generate net names ids key c. cbv zeta. unfold client_request.
  destruct (match key with None => generate (cl_size K conn c) | Some k => Ok k end) as [k|e]; [|cbn; auto].
  destruct (utf8_decode (pem k)) as [t|e]; [|cbn; auto]. destruct (net _ _) as [r|]; [|cbn; auto].
  destruct (negb _); [cbn; auto|]. destruct (rp_fault r); cbn; auto.
Qed.
(** Description and type are those last given, whether the calls raised or not. *)
Theorem C93_fields : forall V (l : list (use V)) c,
  cl_desc K conn (after l c) = urls c l /\ cl_type K conn (after l c) = types c l /\
  cl_size K conn (after l c) = cl_size K conn c /\ cl_cred K conn (after l c) = cl_cred K conn c.
Proof.
  intros V. induction l as [|u l IH]; intros c; [repeat split|]. change (after (u :: l) c) with (after l (after1 c u)).
  destruct (IH (after1 c u)) as (-> & -> & -> & ->). unfold urls, types. cbn [map]. destruct u as [connect url ty|generate net names ids key]; cbn [after1 url_of type_of].
  - unfold update_service. cbv zeta.
    destruct (open_service conn connect (or_old ty (cl_type K conn c)) (or_old url (cl_desc K conn c))); cbn [fst cl_desc cl_type cl_size cl_cred]; rewrite !latest_or; auto.
  - destruct (request_keeps V generate net names ids key c) as (-> & -> & -> & -> & _). cbn [latest]. auto.
Qed.

(** Updates that raise, and the connection they open otherwise. *)
Definition dialled {V} (u : use V) (c : client) (k : conn) : Prop :=
  match u with
  | UUpdate connect url ty => or_old ty (cl_type K conn c) = Some (lit "JSONWSP") /\ connect (or_old url (cl_desc K conn c)) = Some k
  | URequest _ _ _ _ _ => False
  end.
Lemma after1_conn : forall V c (u : use V),
  (exists k, dialled u c k /\ cl_conn K conn (after1 c u) = k) \/ ((forall k, ~ dialled u c k) /\ cl_conn K conn (after1 c u) = cl_conn K conn c).
Proof.
  intros V c [connect url ty|generate net names ids key]; cbn [after1 dialled].
  - unfold update_service. cbv zeta.
    destruct (open_service conn connect (or_old ty (cl_type K conn c)) (or_old url (cl_desc K conn c))) as [k|e] eqn:O.
    + apply open_iff in O. left. exists k. split; [exact O|reflexivity].
    + right. split; [|reflexivity]. intros k H. apply open_iff in H. congruence.
  - right. split; [tauto|]. now destruct (request_keeps V generate net names ids key c) as (_ & _ & _ & _ & ->).
Qed.
(** The connection in use is the one opened by the last update that did not raise, for the
    description and type of that moment. *)
Theorem C93_connection : forall V (l : list (use V)) c,
  (exists l1 u l2, l = l1 ++ u :: l2 /\ dialled u (after l1 c) (cl_conn K conn (after l c)) /\
     forall m1 v m2 k, l2 = m1 ++ v :: m2 -> ~ dialled v (after (l1 ++ u :: m1) c) k) \/
  (cl_conn K conn (after l c) = cl_conn K conn c /\ forall m1 v m2 k, l = m1 ++ v :: m2 -> ~ dialled v (after m1 c) k).
Proof.
  intros V. induction l as [|x l IH] using rev_ind; intros c.
  { right. split; [reflexivity|]. intros [|] v m2 k H; discriminate H. }
  rewrite after_app. cbn [after fold_left]. fold (@after V).
  assert (L : forall (a : list (use V)) y m1 v m2, a ++ [y] = m1 ++ v :: m2 -> (m2 = [] /\ m1 = a /\ v = y) \/ exists m3, m2 = m3 ++ [y] /\ a = m1 ++ v :: m3).
  { intros a y m1 v m2 E. destruct m2 as [|z m2] using rev_ind; [apply app_inj_tail in E as [-> ->]; auto|].
    right. exists m2. rewrite app_comm_cons, app_assoc in E. apply app_inj_tail in E as [-> ->]. auto. }
  destruct (after1_conn V (after l c) x) as [(k & D & E)|[N E]].
  - left. exists l, x, []. split; [reflexivity|]. rewrite E. split; [exact D|]. intros [|] v m2 k' H; discriminate H.
  - rewrite E. destruct (IH c) as [(l1 & u & l2 & -> & D & H)|[H1 H2]].
    + left. exists l1, u, (l2 ++ [x]). split; [now rewrite <- app_assoc|]. split; [exact D|]. intros m1 v m2 k Q.
      apply L in Q as [(-> & -> & ->)|(m3 & -> & Q)]; [apply N|exact (H m1 v m3 k Q)].
    + right. split; [exact H1|]. intros m1 v m2 k Q. apply L in Q as [(-> & -> & ->)|(m3 & -> & Q)]; [apply N|exact (H2 m1 v m3 k Q)].
Qed.
(** If no update raised, that is the connection of the description the client shows. *)
Definition raised {V} (u : use V) (c : client) : Prop := match u with UUpdate _ _ _ => forall k, ~ dialled u c k | URequest _ _ _ _ _ => False end.
Theorem C93_described : forall V (l : list (use V)) c (P : option str -> conn -> Prop), P (cl_desc K conn c) (cl_conn K conn c) ->
  (forall connect url ty, In (UUpdate connect url ty) l -> forall d k, connect d = Some k -> P d k) ->
  (forall l1 u l2, l = l1 ++ u :: l2 -> ~ raised u (after l1 c)) ->
  P (cl_desc K conn (after l c)) (cl_conn K conn (after l c)).
Proof.
  intros V. induction l as [|u l IH]; intros c P H0 H1 H2; [exact H0|]. change (after (u :: l) c) with (after l (after1 c u)). apply IH.
  - destruct u as [connect url ty|generate net names ids key].
    + destruct (after1_conn V c (UUpdate connect url ty)) as [(k & [D1 D2] & E)|[N _]].
      * rewrite E. destruct (C93_fields V [UUpdate connect url ty] c) as (F & _). cbn [after fold_left] in F. rewrite F. unfold urls. cbn [map url_of]. rewrite <- latest_or.
        cbn [latest]. eapply H1; [now left|exact D2].
      * destruct (H2 [] (UUpdate connect url ty) l eq_refl). exact N.
    + cbn [after1]. destruct (request_keeps V generate net names ids key c) as (_ & -> & _ & _ & ->). exact H0.
  - intros connect url ty I. apply (H1 connect url ty). now right.
  - intros l1 v l2 ->. exact (H2 (u :: l1) v l2 eq_refl).
Qed.

(** The policy client in the same way: after any updates, its uid is the same, description
    and type are those last given, and the connection is that of the last update that did not
    raise. *)
Definition dialled_p (u : dial * option str * option str) (c : pclient conn) (k : conn) : Prop :=
  let '(connect, url, ty) := u in or_old ty (pc_type conn c) = Some (lit "JSONWSP") /\ connect (or_old url (pc_desc conn c)) = Some k.
Definition after_p (l : list (dial * option str * option str)) (c : pclient conn) : pclient conn :=
  fold_left (fun c u => let '(connect, url, ty) := u in fst (update_pservice conn connect url ty c)) l c.
Lemma update_p : forall (connect : dial) url ty c,
  let c' := fst (update_pservice conn connect url ty c) in
  pc_uid conn c' = pc_uid conn c /\ pc_desc conn c' = or_old url (pc_desc conn c) /\ pc_type conn c' = or_old ty (pc_type conn c) /\
  ((exists k, dialled_p (connect, url, ty) c k /\ pc_conn conn c' = k) \/ ((forall k, ~ dialled_p (connect, url, ty) c k) /\ pc_conn conn c' = pc_conn conn c)) /\
  (snd (update_pservice conn connect url ty c) = COk tt <-> exists k, dialled_p (connect, url, ty) c k).
Proof.
  intros connect url ty c. cbv zeta. unfold update_pservice, dialled_p. cbv zeta.
  destruct (open_service conn connect (or_old ty (pc_type conn c)) (or_old url (pc_desc conn c))) as [k|e] eqn:O; cbn [fst snd pc_uid pc_desc pc_type pc_conn].
  - apply open_iff in O. split; [reflexivity|]. split; [reflexivity|]. split; [reflexivity|]. split; [left; now exists k|]. split; [intros _; now exists k|reflexivity].
  - assert (N : forall k, ~ (or_old ty (pc_type conn c) = Some (lit "JSONWSP") /\ connect (or_old url (pc_desc conn c)) = Some k)).
    { intros k H. apply open_iff in H. congruence. }
    split; [reflexivity|]. split; [reflexivity|]. split; [reflexivity|]. split; [right; split; [exact N|reflexivity]|]. split; [discriminate|]. intros [k H]. destruct (N k H).
Qed.
Theorem C93_policy_update : forall l c,
  pc_uid conn (after_p l c) = pc_uid conn c /\
  pc_desc conn (after_p l c) = latest (pc_desc conn c) (map (fun u => snd (fst u)) l) /\
  pc_type conn (after_p l c) = latest (pc_type conn c) (map snd l) /\
  ((exists l1 u l2, l = l1 ++ u :: l2 /\ dialled_p u (after_p l1 c) (pc_conn conn (after_p l c)) /\
     forall m1 v m2 k, l2 = m1 ++ v :: m2 -> ~ dialled_p v (after_p (l1 ++ u :: m1) c) k) \/
   (pc_conn conn (after_p l c) = pc_conn conn c /\ forall m1 v m2 k, l = m1 ++ v :: m2 -> ~ dialled_p v (after_p m1 c) k)).
Proof.
  assert (LA : forall A (l : list (option A)) old x, latest old (l ++ [x]) = or_old x (latest old l)).
  { intros A l. induction l as [|[y|] l IH]; intros old x; cbn [app latest]; [now destruct x|apply IH|apply IH]. }
  induction l as [|[[connect url] ty] l IH] using rev_ind; intros c.
  { cbn. repeat split. right. split; [reflexivity|]. intros [|] v m2 k H; discriminate H. }
  destruct (IH c) as (H1 & H2 & H3 & H4). rewrite !map_app. cbn [map fst snd]. rewrite !LA, <- H1, <- H2, <- H3.
  replace (after_p (l ++ [(connect, url, ty)]) c) with (fst (update_pservice conn connect url ty (after_p l c))) by (unfold after_p; now rewrite fold_left_app).
  destruct (update_p connect url ty (after_p l c)) as (U1 & U2 & U3 & U4 & _). split; [exact U1|]. split; [exact U2|]. split; [exact U3|].
  assert (L : forall (a : list (dial * option str * option str)) y m1 v m2, a ++ [y] = m1 ++ v :: m2 -> (m2 = [] /\ m1 = a /\ v = y) \/ exists m3, m2 = m3 ++ [y] /\ a = m1 ++ v :: m3).
  { intros a y m1 v m2 E. destruct m2 as [|z m2] using rev_ind; [apply app_inj_tail in E as [-> ->]; auto|].
    right. exists m2. rewrite app_comm_cons, app_assoc in E. apply app_inj_tail in E as [-> ->]. auto. }
  destruct U4 as [(k & D & E)|[N E]].
  - left. exists l, (connect, url, ty), []. split; [reflexivity|]. rewrite E. split; [exact D|]. intros [|] v m2 k' H; discriminate H.
  - rewrite E. destruct H4 as [(l1 & u & l2 & -> & D & H)|[H5 H6]].
    + left. exists l1, u, (l2 ++ [(connect, url, ty)]). split; [now rewrite <- app_assoc|]. split; [exact D|]. intros m1 v m2 k Q.
      apply L in Q as [(-> & -> & ->)|(m3 & -> & Q)]; [apply N|exact (H m1 v m3 k Q)].
    + right. split; [exact H5|]. intros m1 v m2 k Q. apply L in Q as [(-> & -> & ->)|(m3 & -> & Q)]; [apply N|exact (H6 m1 v m3 k Q)].
Qed.

(** ** C95: the key of the session *)

(** The service took part in a request made with a key. *)
Definition answered {V} (u : use V) (c : client) (k : prv K) : Prop :=
  match u with
  | UUpdate _ _ _ => False
  | URequest generate net names ids key =>
      (key = Some k \/ key = None /\ generate (cl_size K conn c) = Ok k) /\
      exists text r, utf8_encode text = Ok (pem k) /\
        net (cl_conn K conn c)
            (Sent (cl_cred K conn c) text (lit "RSA") (match key with None => cl_size K conn c | Some k => bits k end) names ids) = Some r /\
        rp_status r = 200 /\ rp_fault r = None
  end.
Lemma decode_iff : forall b s, utf8_decode b = Ok s <-> utf8_encode s = Ok b.
Proof. intros b s. split; [apply (utf8_decode_sound (List.length b)); lia|apply utf8_round_trip]. Qed.
Lemma after1_last : forall V c (u : use V),
  (exists k, answered u c k /\ cl_last K conn (after1 c u) = Some k) \/ ((forall k, ~ answered u c k) /\ cl_last K conn (after1 c u) = cl_last K conn c).
Proof.
  intros V c [connect url ty|generate net names ids key]; cbn [after1 answered].
  { right. split; [tauto|]. unfold update_service. cbv zeta. now destruct (open_service _ _ _ _). }
  unfold client_request. destruct (match key with None => generate (cl_size K conn c) | Some k => Ok k end) as [k|e] eqn:G.
  2:{ right. split; [|reflexivity]. intros k ([->|[-> E]] & _); congruence. }
  assert (KK : forall k', key = Some k' \/ key = None /\ generate (cl_size K conn c) = Ok k' -> k' = k).
  { intros k' [->|[-> E]]; [now apply Ok_inj in G|]. rewrite E in G. now apply Ok_inj in G. }
  destruct (utf8_decode (pem k)) as [t|e] eqn:D.
  2:{ right. split; [|reflexivity]. intros k' (A & text & r & E & _). apply KK in A. subst k'. apply decode_iff in E. congruence. }
  assert (TT : forall k' text, k' = k -> utf8_encode text = Ok (pem k') -> text = t).
  { intros k' text -> E. apply decode_iff in E. rewrite D in E. now apply Ok_inj in E. }
  destruct (net _ _) as [r|] eqn:N.
  2:{ right. split; [|reflexivity]. intros k' (A & text & r & E & F & _). apply KK in A. apply TT in E; [|exact A]. subst text. congruence. }
  destruct (rp_status r =? 200) eqn:ST; cbn [negb].
  2:{ right. split; [|reflexivity]. intros k' (A & text & r' & E & F & S & _). apply KK in A. apply TT in E; [|exact A]. subst text.
      rewrite F in N. injection N as <-. apply Z.eqb_neq in ST. contradiction. }
  apply Z.eqb_eq in ST. destruct (rp_fault r) as [f|] eqn:FA.
  { right. split; [|reflexivity]. intros k' (A & text & r' & E & F & _ & S). apply KK in A. apply TT in E; [|exact A]. subst text.
    rewrite F in N. injection N as <-. congruence. }
  left. exists k. split; [|reflexivity]. split.
  - destruct key as [k'|]; [left; apply Ok_inj in G; now subst|right; auto].
  - exists t, r. split; [now apply decode_iff|]. auto.
Qed.
(** The key remembered is the one of the latest request answered without fault. *)
Theorem C95_last_key : forall V (l : list (use V)) c,
  (exists l1 u l2 k, l = l1 ++ u :: l2 /\ answered u (after l1 c) k /\ cl_last K conn (after l c) = Some k /\
     forall m1 v m2 k', l2 = m1 ++ v :: m2 -> ~ answered v (after (l1 ++ u :: m1) c) k') \/
  (cl_last K conn (after l c) = cl_last K conn c /\ forall m1 v m2 k, l = m1 ++ v :: m2 -> ~ answered v (after m1 c) k).
Proof.
  intros V. induction l as [|x l IH] using rev_ind; intros c.
  { right. split; [reflexivity|]. intros [|] v m2 k H; discriminate H. }
  rewrite after_app. cbn [after fold_left]. fold (@after V).
  assert (L : forall (a : list (use V)) y m1 v m2, a ++ [y] = m1 ++ v :: m2 -> (m2 = [] /\ m1 = a /\ v = y) \/ exists m3, m2 = m3 ++ [y] /\ a = m1 ++ v :: m3).
  { intros a y m1 v m2 E. destruct m2 as [|z m2] using rev_ind; [apply app_inj_tail in E as [-> ->]; auto|].
    right. exists m2. rewrite app_comm_cons, app_assoc in E. apply app_inj_tail in E as [-> ->]. auto. }
  destruct (after1_last V (after l c) x) as [(k & D & E)|[N E]].
  - left. exists l, x, [], k. split; [reflexivity|]. split; [exact D|]. split; [exact E|]. intros [|] v m2 k' H; discriminate H.
  - rewrite E. destruct (IH c) as [(l1 & u & l2 & k & -> & D & Q & H)|[H1 H2]].
    + left. exists l1, u, (l2 ++ [x]), k. split; [now rewrite <- app_assoc|]. split; [exact D|]. split; [exact Q|]. intros m1 v m2 k' R.
      apply L in R as [(-> & -> & ->)|(m3 & -> & R)]; [apply N|exact (H m1 v m3 k' R)].
    + right. split; [exact H1|]. intros m1 v m2 k Q. apply L in Q as [(-> & -> & ->)|(m3 & -> & Q)]; [apply N|exact (H2 m1 v m3 k Q)].
Qed.

(** What a request returns. *)
Lemma request_ok : forall V generate (net : conn -> sent -> option (reply V)) names ids key c c' v,
  client_request K pem bits conn generate net names ids key c = (c', COk v) ->
  exists k text r, (key = Some k \/ key = None /\ generate (cl_size K conn c) = Ok k) /\ utf8_encode text = Ok (pem k) /\
    net (cl_conn K conn c)
        (Sent (cl_cred K conn c) text (lit "RSA") (match key with None => cl_size K conn c | Some k => bits k end) names ids) = Some r /\
    rp_status r = 200 /\ rp_fault r = None /\ rp_result r = Some v /\ cl_last K conn c' = Some k.
Proof.
  intros V generate net names ids key c c' v. unfold client_request.
  destruct (match key with None => generate (cl_size K conn c) | Some k => Ok k end) as [k|e] eqn:G; [|intros H; discriminate H].
  destruct (utf8_decode (pem k)) as [t|e] eqn:D; [|intros H; discriminate H].
  destruct (net _ _) as [r|] eqn:N; [|intros H; discriminate H].
  destruct (rp_status r =? 200) eqn:ST; cbn [negb]; [|intros H; discriminate H]. destruct (rp_fault r) as [f|] eqn:FA; [intros H; discriminate H|].
  destruct (rp_result r) as [w|] eqn:R; [|intros H; discriminate H]. intros H. injection H as <- <-.
  exists k, t, r. split; [destruct key as [k'|]; [left; apply Ok_inj in G; now subst|right; auto]|]. split; [now apply decode_iff|].
  split; [exact N|]. apply Z.eqb_eq in ST. auto.
Qed.

(** A network that hands the arguments to the attribute authority and its result back. *)
Variable au : authority K.
Variable checkpw : bytes -> bytes -> res bool.
Variable order : list valued -> list valued.
Definition delivered (s : sent) (q : request) : Prop :=
  rq_username q = cd_user (sn_cred s) /\ rq_password q = cd_pass (sn_cred s) /\ utf8_encode (sn_key s) = Ok (rq_key q) /\
  rq_cipher q = sn_cipher s /\ rq_size q = sn_size s /\ rq_ids q = sn_ids s /\ rq_names q = sn_names s.
Definition served_by (net : conn -> sent -> option (reply issued)) : Prop :=
  forall c s r i, net c s = Some r -> rp_status r = 200 -> rp_fault r = None -> rp_result r = Some i ->
    exists q dir d h dir', delivered s q /\ attribute_request K U au checkpw order dir d q h = (dir', Ok i).

(** The certificate a request returns names as its holder the user of the client's credentials
    with the public key of the pair that the client then remembers. *)
Theorem C95_certificate : forall generate net names ids key c c' i, served_by net ->
  (forall n k, generate n = Ok k -> bits k = n) ->
  client_request K pem bits conn generate net names ids key c = (c', COk i) ->
  exists k user, cl_last K conn c' = Some k /\ (key = Some k \/ key = None /\ generate (cl_size K conn c) = Ok k) /\
    cd_user (cl_cred K conn c) = Some user /\
    c_holder (is_cert i) = Holder (pem k) (lit "RSA[" ++ str_of_Z (bits k) ++ lit "]") (au_uri au ++ lit "/user/" ++ user) (Some user) /\
    names <> None /\ ids <> None.
Proof.
  intros generate net names ids key c c' i SB BG H. apply request_ok in H as (k & text & r & KK & T & N & ST & FA & R & L).
  destruct (SB _ _ _ _ N ST FA R) as (q & dir & d & h & dir' & (D1 & D2 & D3 & D4 & D5 & D6 & D7) & A). cbn [sn_cred sn_key sn_cipher sn_size sn_names sn_ids] in *.
  apply answer_inv in A as [A _]. apply request_inv in A as (addr & user & name & is & ns & sel & ct & c2 & b & E & AU & I & NM & S & C & X & ->).
  apply cert_inv in C as (cons & us & C1 & C2 & ->). apply sign_export in X as (w & s & _ & _ & -> & _); [|discriminate].
  apply authenticate_sound in AU as (_ & AU & _). exists k, name. split; [exact L|]. split; [exact KK|]. split; [congruence|]. split; [|split; congruence].
  cbn [is_cert with_sig c_holder]. rewrite D3 in T. apply Ok_inj in T.
  assert (B : match key with None => cl_size K conn c | Some k => bits k end = bits k).
  { destruct KK as [->|[-> G]]; [reflexivity|]. symmetry. now apply BG. }
  rewrite B in D5. rewrite T, D4, D5. reflexivity.
Qed.
(** So a request with one of the lists left out never succeeds at that authority. *)
Theorem C95_lists : forall generate net names ids key c c' i, served_by net -> names = None \/ ids = None ->
  client_request K pem bits conn generate net names ids key c <> (c', COk i).
Proof.
  intros generate net names ids key c c' i SB NN H. apply request_ok in H as (k & text & r & KK & T & N & ST & FA & R & L).
  destruct (SB _ _ _ _ N ST FA R) as (q & dir & d & h & dir' & (_ & _ & _ & _ & _ & D6 & D7) & A). cbn [sn_names sn_ids] in *.
  apply answer_inv in A as [A _]. apply request_inv in A as (addr & user & name & is & ns & sel & ct & c2 & b & _ & _ & I & NM & _).
  destruct NN; congruence.
Qed.

(** A fault of the service: reported by attribute_request with its text, by info and
    trusted_attribute_authorities as a missing result, by start_session not at all. *)
Theorem C95_faults : forall V (r : reply V) f, rp_status r = 200 -> rp_fault r = Some f -> rp_result r = None ->
  (forall generate net names ids k c text, utf8_encode text = Ok (pem k) ->
     (forall s, sn_key s = text -> net (cl_conn K conn c) s = Some r) ->
     client_request K pem bits conn generate net names ids (Some k) c = (c, CBad (CFault f))) /\
  (forall net c, net (cl_conn K conn c) = Some r -> client_info K conn net c = CBad (CPy EKey)) /\
  (forall net k, net k = Some r -> plain_call conn net k = CBad (CPy EKey)) /\
  (forall net certs c, net (pc_conn conn c) (pc_uid conn c) certs = Some r -> client_session conn net certs c = COk r).
Proof.
  intros V r f ST FA R. split; [|split; [|split]].
  - intros generate net names ids k c text T N. unfold client_request. apply decode_iff in T. rewrite T, N by reflexivity. now rewrite ST, FA.
  - intros net c N. unfold client_info, plain_call. now rewrite N, ST, R.
  - intros net k N. unfold plain_call. now rewrite N, ST, R.
  - intros net certs c N. unfold client_session. now rewrite N.
Qed.
(** info and trusted_attribute_authorities return exactly the result of an answer with status
    200; start_session returns the answer to the uid and certificates given, whatever it is. *)
Theorem C95_results : forall V,
  (forall net c (v : V), client_info K conn net c = COk v <-> exists r, net (cl_conn K conn c) = Some r /\ rp_status r = 200 /\ rp_result r = Some v) /\
  (forall net k (v : V), plain_call conn net k = COk v <-> exists r, net k = Some r /\ rp_status r = 200 /\ rp_result r = Some v) /\
  (forall net certs c (r : reply V), client_session conn net certs c = COk r <-> net (pc_conn conn c) (pc_uid conn c) certs = Some r).
Proof.
  intros V. assert (P : forall net k (v : V), plain_call conn net k = COk v <-> exists r, net k = Some r /\ rp_status r = 200 /\ rp_result r = Some v).
  { intros net k v. unfold plain_call. destruct (net k) as [r|]; [|split; [discriminate|intros (r & E & _); discriminate E]].
    destruct (rp_status r =? 200) eqn:S; cbn [negb].
    - apply Z.eqb_eq in S. split.
      + destruct (rp_result r) as [w|] eqn:R; [|discriminate]. intros H. injection H as <-. exists r. auto.
      + intros (r' & E & _ & R). injection E as <-. now rewrite R.
    - apply Z.eqb_neq in S. split; [discriminate|]. intros (r' & E & S' & _). injection E as <-. contradiction. }
  split; [|split; [exact P|]].
  - intros net c v. apply P.
  - intros net certs c r. unfold client_session. destruct (net _ _ _) as [x|]; split; intros H; try discriminate H; injection H as <-; reflexivity.
Qed.
End Clients.
Print Assumptions C93_created.
Print Assumptions C93_policy_created.
Print Assumptions C93_fields.
Print Assumptions C93_connection.
Print Assumptions C93_described.
Print Assumptions C95_last_key.
Print Assumptions C95_certificate.
Print Assumptions C95_lists.
Print Assumptions C95_faults.
Print Assumptions C95_results.
Print Assumptions C93_policy_update.

(** ** Examples *)

Definition ex_conn (desc : option str) : option str := match desc with Some d => if str_eqb d (lit "http://down/") then None else Some d | None => None end.
Definition ex_pem (k : prv toy) : bytes := [k + 1]%N.
(** A failed update leaves the client showing a description it is not connected to. *)
Theorem C93_unchanged_refuted : exists c c', new_client ascii_only toy str ex_conn shipped_clients None = COk c /\
  update_service toy str ex_conn (Some (lit "http://down/")) None c = (c', CBad CNet) /\
  cl_desc toy str c' = Some (lit "http://down/") /\ cl_conn toy str c' = cl_conn toy str c /\
  ex_conn (cl_desc toy str c') <> Some (cl_conn toy str c').
Proof.
  eexists. eexists. split; [vm_compute; reflexivity|]. split; [vm_compute; reflexivity|]. split; [reflexivity|]. split; [reflexivity|]. intros H. vm_compute in H. discriminate H.
Qed.
Print Assumptions C93_unchanged_refuted.
(** start_session returns the answer to a refused session like any other. *)
Theorem C95_session_refuted : exists c certs net r, new_pclient ascii_only str ex_conn shipped_clients (lit "svc") = COk c /\
  client_session str net certs c = COk (r : reply unit) /\ rp_status r = 500 /\ rp_fault r <> None /\ rp_result r = None.
Proof.
  eexists. exists [], (fun _ _ _ => Some (Reply 500 (Some (lit "no")) None)), (Reply 500 (Some (lit "no")) None).
  split; [vm_compute; reflexivity|]. split; [reflexivity|]. split; [reflexivity|]. split; [discriminate|reflexivity].
Qed.
Print Assumptions C95_session_refuted.

Definition ex_net (c : str) (s : sent) : option (reply issued) :=
  match utf8_encode (sn_key s) with
  | Err _ => None
  | Ok b =>
      match snd (ex_answer (Request 0 (cd_user (sn_cred s)) (cd_pass (sn_cred s)) b (sn_cipher s) (sn_size s) (sn_ids s) (sn_names s) [(lit "REMOTE_ADDR", lit "10.0.0.1")])) with
      | Ok i => Some (Reply 200 None (Some i))
      | Err _ => Some (Reply 200 (Some (lit "refused")) None)
      end
  end.
Lemma ex_served : served_by ascii_only toy str ex_au ex_checkpw (fun l => l) ex_net.
Proof.
  intros c s r i H ST FA R. unfold ex_net in H. destruct (utf8_encode (sn_key s)) as [b|] eqn:E; [|discriminate].
  destruct (ex_answer _) as [dir' [j|e]] eqn:A; cbn [snd] in H; injection H as <-; cbn [rp_result rp_fault] in *; [|discriminate]. injection R as <-.
  eexists. exists [], ex_users, ex_chance, dir'. split; [|exact A]. repeat split. exact E.
Qed.
(** A request answered, one refused and an update in between: the first key is remembered. *)
Example ex_client :
  exists c, new_client ascii_only toy str ex_conn shipped_clients (Some (Cred (Some (lit "0")) (Some (lit "Alice")) (Some (lit "secret")))) = COk c /\
  cl_size toy str c = 2048 /\
  (exists c1 i, client_request toy ex_pem (fun _ => 2048) str (fun _ => Ok 8%N) ex_net (Some []) (Some []) None c = (c1, COk i) /\
     ho_key (c_holder (is_cert i)) = [9]%N /\ ho_name (c_holder (is_cert i)) = Some (lit "Alice")) /\
  cl_last toy str (after toy ex_pem (fun _ => 2048) str
    [URequest toy str _ (fun _ => Ok 8%N) ex_net (Some []) (Some []) None; UUpdate toy str _ ex_conn (Some (lit "http://other/")) None;
     URequest toy str _ (fun _ => Ok 5%N) ex_net None (Some []) None] c) = Some 8%N.
Proof.
  eexists. split; [vm_compute; reflexivity|]. split; [reflexivity|]. split; [|vm_compute; reflexivity].
  eexists. eexists. split; [vm_compute; reflexivity|]. split; vm_compute; reflexivity.
Qed.
(** Types are compared as written, and KEY_SIZE is needed. *)
Example ex_not_created :
  map (fun F => match new_client ascii_only toy str ex_conn F None with COk _ => None | CBad e => Some e end)
    [no_file;
     {| f_default := []; f_sections := [(lit "AAUTH", ini [("client_type", "JSONWSP"); ("service_description", "http://a/")]%string)] |};
     {| f_default := []; f_sections := [(lit "AAUTH", ini [("client_type", "jsonwsp"); ("service_description", "http://a/"); ("key_size", "2048")]%string)] |};
     {| f_default := []; f_sections := [(lit "AAUTH", ini [("client_type", "JSONWSP"); ("service_description", "http://a/"); ("key_size", "2k")]%string)] |};
     {| f_default := []; f_sections := [(lit "AAUTH", ini [("client_type", "JSONWSP"); ("service_description", "http://a/"); ("key_size", "1024")]%string)] |}] =
  [Some (CPy EType); Some (CPy EType); Some CType; Some (CPy EValue); None].
Proof. vm_compute. reflexivity. Qed.
(** A policy client updated three times, the last time without success. *)
Example ex_policy_updates :
  exists c, new_pclient ascii_only str ex_conn shipped_clients (lit "svc") = COk c /\
  let c' := after_p str [(ex_conn, Some (lit "http://a/"), None); (ex_conn, Some (lit "http://b/"), Some (lit "JSONWSP")); (ex_conn, Some (lit "http://down/"), None)] c in
  pc_uid str c' = lit "svc" /\ pc_conn str c' = lit "http://b/" /\ pc_desc str c' = Some (lit "http://down/").
Proof. eexists. split; [vm_compute; reflexivity|]. vm_compute. repeat split. Qed.
