(** * AAuthDemoProofs: lemmas about the graphical attribute authority client *)

From Coq Require Import NArith ZArith List Bool String Lia.
From Verif Require Import PyBase LexSpec LexProofs LexCase Struct BytesProofs AttCert CertSpec CertProofs CertProofs2 CertProps CertProps2 Config ConfigProps Logging LoggingProps
  PAuth AAuth AAuthSpec AAuthProofs AAuthProps Clients ClientsProps AAuthDemo.
Import ListNotations.
Open Scope Z_scope.

Section Demo.
Variable U : unicode.
Variable K : crypto.
Variable pem : prv K -> bytes.
Variable bits : prv K -> Z.
Variable conn : Type.
Variable pair : prv K -> str.
Variable day : Z -> res str.
Notation dframe := (dframe K conn).
Notation act := (act K conn).
Notation call := (call K conn).
Notation do_act := (do_act U K pem bits conn pair day).
Notation use_demo := (use_demo U K pem bits conn pair day).

(** ** Reachable frames *)

Lemma use_ind : forall (P : dframe -> Prop) (Q : act -> Prop), (forall a f, Q a -> P f -> P (fst (do_act a f))) ->
  forall l f, Forall Q l -> P f -> P (use_demo l f).
Proof.
  intros P Q H. induction l as [|a l IH]; intros f A F; [exact F|]. inversion A as [|x y A1 A2]; subst. cbn [AAuthDemo.use_demo].
  pose proof (H a f A1 F) as G. destruct (do_act a f) as [f' o]. cbn [fst] in G. destruct o; [exact (IH f' A2 G)|exact (IH f' A2 G)|exact G].
Qed.
Lemma use_all : forall (P : dframe -> Prop), (forall a f, P f -> P (fst (do_act a f))) -> forall l f, P f -> P (use_demo l f).
Proof.
  intros P H l f. apply (use_ind P (fun _ => True)); [intros a g _; apply H|]. apply Forall_forall. trivial.
Qed.

(** ** Requests *)

(** The key a request is made with. *)
Definition key_of (f : dframe) (g : Z -> res (prv K)) (c : client K conn) (k : prv K) : Prop :=
  d_key K conn f = Some k \/ d_key K conn f = None /\ g (cl_size K conn c) = Ok k.
(** What is sent for a key. *)
Definition message (f : dframe) (k : prv K) (text : str) (size : Z) : sent :=
  Sent (login K conn f) text (lit "RSA") (match d_key K conn f with None => size | Some k => bits k end)
    (Some (map Some (d_names K conn f))) (Some (map Some (d_ids K conn f))).
(** One call of the service that gave bytes to read. *)
Definition answers (f : dframe) (c : client K conn) (x : call) (b : attachment) (k : prv K) : Prop :=
  exists text r, key_of f (ca_generate K conn x) c k /\ utf8_encode text = Ok (pem k) /\
    ca_net K conn x (cl_conn K conn c) (message f k text (cl_size K conn c)) = Some r /\
    rp_status r = 200 /\ rp_fault r = None /\ rp_result r = Some b.
(** Clients that differ only in the key they remember. *)
Definition like (c c' : client K conn) : Prop :=
  cl_type K conn c' = cl_type K conn c /\ cl_desc K conn c' = cl_desc K conn c /\ cl_size K conn c' = cl_size K conn c /\
  cl_cred K conn c' = cl_cred K conn c /\ cl_conn K conn c' = cl_conn K conn c.
Lemma like_refl : forall c, like c c.
Proof. intros c. unfold like. auto. Qed.
Lemma like_trans : forall a b c, like a b -> like b c -> like a c.
Proof. intros a b c (A1 & A2 & A3 & A4 & A5) (B1 & B2 & B3 & B4 & B5). unfold like. repeat split; congruence. Qed.

Lemma issue_spec : forall f x f' r, cl_cred K conn (d_client K conn f) = login K conn f -> issue K pem bits conn f x = (f', r) ->
  exists cl, f' = with_client K conn f cl /\ like (d_client K conn f) cl /\
    match r with
    | CBad _ => True
    | COk a => exists k, answers f (d_client K conn f) x a k /\ cl_last K conn cl = Some k
    end.
Proof.
  intros f x f' r LG. unfold issue.
  destruct (client_request K pem bits conn (ca_generate K conn x) (ca_net K conn x) (Some (map Some (d_names K conn f))) (Some (map Some (d_ids K conn f)))
    (d_key K conn f) (d_client K conn f)) as [cl r'] eqn:R.
  intros H. injection H as <- <-. exists cl. split; [reflexivity|]. split.
  - pose proof (request_keeps K pem bits conn _ (ca_generate K conn x) (ca_net K conn x) (Some (map Some (d_names K conn f))) (Some (map Some (d_ids K conn f)))
      (d_key K conn f) (d_client K conn f)) as Q. cbv zeta in Q. rewrite R in Q. cbn [fst] in Q. exact Q.
  - destruct r' as [a|e]; [|exact I].
    apply request_ok in R as (k & text & r & A & B & C & D & E & F & G). exists k. split; [|exact G].
    exists text, r. split; [exact A|]. split; [exact B|]. split; [|auto]. rewrite LG in C. exact C.
Qed.

Lemma answers_like : forall f c c' x b k, like c c' -> answers f c' x b k -> answers f c x b k.
Proof.
  intros f c c' x b k (L1 & L2 & L3 & L4 & L5) (text & r & A & B & C). exists text, r. unfold key_of in *. rewrite L3 in A. rewrite L3, L5 in C. auto.
Qed.

(** The loop: the frame it leaves differs in the client only, and the bytes it gives are those
    of one of the calls. *)
Lemma loop_spec : forall more got f f' o, cl_cred K conn (d_client K conn f) = login K conn f ->
  read_loop K pem bits conn got more f = (f', o) ->
  exists cl, f' = with_client K conn f cl /\ like (d_client K conn f) cl /\
    match o with
    | inl o => o <> Returned
    | inr b => (got = Ok b /\ cl = d_client K conn f) \/
               exists x k, In x more /\ answers f (d_client K conn f) x (Ok b) k /\ cl_last K conn cl = Some k
    end.
Proof.
  induction more as [|x more IH]; intros got f f' o LG H; destruct got as [b|e]; cbn [read_loop] in H.
  - injection H as <- <-. exists (d_client K conn f). split; [now destruct f|]. split; [apply like_refl|]. left; auto.
  - destruct (is_value_error e); injection H as <- <-; exists (d_client K conn f); (split; [now destruct f|]); (split; [apply like_refl|discriminate]).
  - injection H as <- <-. exists (d_client K conn f). split; [now destruct f|]. split; [apply like_refl|]. left; auto.
  - destruct (is_value_error e).
    2:{ injection H as <- <-. exists (d_client K conn f). split; [now destruct f|]. split; [apply like_refl|discriminate]. }
    destruct (issue K pem bits conn f x) as [f1 r] eqn:I. destruct (issue_spec f x f1 r LG I) as (c1 & -> & L & R).
    destruct r as [got|e'].
    + assert (LG1 : cl_cred K conn (d_client K conn (with_client K conn f c1)) = login K conn (with_client K conn f c1)).
      { destruct L as (_ & _ & _ & L & _). cbn [with_client d_client]. rewrite L, LG. reflexivity. }
      destruct (IH got (with_client K conn f c1) f' o LG1 H) as (cl & -> & L' & D). exists cl. split; [reflexivity|].
      cbn [with_client d_client] in L'. split; [exact (like_trans _ _ _ L L')|].
      destruct o as [o|b]; [exact D|]. right. destruct D as [[-> ->]|(y & k & I1 & A & E)].
      * destruct R as (k & A & E). exists x, k. split; [now left|]. auto.
      * exists y, k. split; [now right|]. split; [|exact E]. cbn [with_client d_client] in A. apply (answers_like f _ _ y (Ok b) k L). exact A.
    + injection H as <- <-. exists c1. split; [reflexivity|]. split; [exact L|discriminate].
Qed.

(** The connection a button uses: a new one if another URL is shown than the client has. *)
Definition same_url (f : dframe) : Prop := cl_desc K conn (d_client K conn f) = Some (d_url K conn f).
Lemma follow_spec : forall connect f f' r, follow_url K conn connect f = (f', r) ->
  exists cl, f' = with_client K conn f cl /\ cl_desc K conn cl = Some (d_url K conn f) /\
    cl_type K conn cl = cl_type K conn (d_client K conn f) /\ cl_size K conn cl = cl_size K conn (d_client K conn f) /\
    cl_last K conn cl = cl_last K conn (d_client K conn f) /\ cl_cred K conn cl = cl_cred K conn (d_client K conn f) /\
    ((same_url f /\ r = COk tt /\ cl = d_client K conn f) \/
     (~ same_url f /\ r = COk tt /\ cl_type K conn cl = Some (lit "JSONWSP") /\ connect (Some (d_url K conn f)) = Some (cl_conn K conn cl)) \/
     (~ same_url f /\ (exists e, r = CBad e) /\ cl_conn K conn cl = cl_conn K conn (d_client K conn f) /\
      ~ (cl_type K conn cl = Some (lit "JSONWSP") /\ exists k, connect (Some (d_url K conn f)) = Some k))).
Proof.
  intros connect f f' r. unfold follow_url, same_url.
  destruct (match cl_desc K conn (d_client K conn f) with Some d => str_eqb d (d_url K conn f) | None => false end) eqn:S.
  - intros H. injection H as <- <-. destruct (cl_desc K conn (d_client K conn f)) as [d|] eqn:D; [|discriminate]. apply str_eqb_eq in S. subst d.
    exists (d_client K conn f). split; [now destruct f|]. rewrite D. repeat (split; [reflexivity|]). left. auto.
  - assert (N : cl_desc K conn (d_client K conn f) <> Some (d_url K conn f)).
    { intros E. rewrite E in S. rewrite str_eqb_refl in S. discriminate S. }
    unfold update_service. cbn [or_old].
    destruct (open_service conn connect (cl_type K conn (d_client K conn f)) (Some (d_url K conn f))) as [k|e] eqn:O; intros H; injection H as <- <-;
      eexists; (split; [reflexivity|]); cbn [cl_desc cl_type cl_size cl_last cl_cred cl_conn]; repeat (split; [reflexivity|]).
    + right. left. apply open_iff in O. tauto.
    + right. right. split; [exact N|]. split; [now exists e|]. split; [reflexivity|]. intros (T & k & C).
      assert (Q : open_service conn connect (cl_type K conn (d_client K conn f)) (Some (d_url K conn f)) = COk k) by (apply open_iff; auto). congruence.
Qed.

(** A press of "Issue Attribute Request": the client [cl] the calls start from, and what
    happens. *)
Definition asks (connect : option str -> option conn) (f : dframe) (cl : client K conn) : Prop :=
  cl_desc K conn cl = Some (d_url K conn f) /\ cl_size K conn cl = cl_size K conn (d_client K conn f) /\
  (same_url f /\ cl_conn K conn cl = cl_conn K conn (d_client K conn f) \/
   ~ same_url f /\ connect (Some (d_url K conn f)) = Some (cl_conn K conn cl)) /\
  cl_type K conn cl = cl_type K conn (d_client K conn f).

Lemma request_spec : forall connect first more f,
  (exists cl e, command_ac U K pem bits conn pair day connect first more f = (with_client K conn f cl, Raised (DClient e)) /\ ~ same_url f /\
     cl_desc K conn cl = Some (d_url K conn f) /\ cl_conn K conn cl = cl_conn K conn (d_client K conn f) /\ cl_last K conn cl = cl_last K conn (d_client K conn f) /\
     snd (follow_url K conn connect f) = CBad e) \/
  (exists c0 cl, asks connect f c0 /\ like c0 cl /\ cl_cred K conn cl = login K conn f /\
     ((exists e, command_ac U K pem bits conn pair day connect first more f = (with_response K conn (with_client K conn f cl) (RespError e), Returned)) \/
      (exists o, o <> Returned /\ command_ac U K pem bits conn pair day connect first more f = (with_client K conn f cl, o)) \/
      (exists b x k, In x (first :: more) /\ answers f c0 x (Ok b) k /\ cl_last K conn cl = Some k /\
         command_ac U K pem bits conn pair day connect first more f = receive U K conn pair day b (with_client K conn f cl)))).
Proof.
  intros connect first more f. unfold command_ac. destruct (follow_url K conn connect f) as [f1 r1] eqn:FU.
  destruct (follow_spec connect f f1 r1 FU) as (c1 & -> & D1 & T1 & S1 & L1 & CR1 & W).
  destruct r1 as [[]|e].
  2:{ left. destruct W as [(_ & W & _)|[(_ & W & _)|(N & _ & W & _)]]; try discriminate. exists c1, e. cbn [snd]. auto 10. }
  right. set (c0 := as_client K conn (with_client K conn f c1)).
  assert (A0 : asks connect f c0).
  { unfold asks, c0, as_client. cbn [with_client d_client cl_desc cl_size cl_conn cl_type]. split; [exact D1|]. split; [exact S1|]. split; [|exact T1].
    destruct W as [(W1 & _ & ->)|[(W1 & _ & _ & W2)|(_ & [e W] & _)]]; [left; auto|right; auto|discriminate]. }
  assert (C0 : cl_cred K conn c0 = login K conn f) by reflexivity.
  change (with_client K conn (with_client K conn f c1) c0) with (with_client K conn f c0).
  destruct (issue K pem bits conn (with_client K conn f c0) first) as [f2 r2] eqn:I.
  destruct (issue_spec (with_client K conn f c0) first f2 r2 C0 I) as (c2 & -> & L & R). cbn [with_client d_client] in L.
  assert (C2 : cl_cred K conn c2 = login K conn f) by (destruct L as (_ & _ & _ & L & _); congruence).
  destruct r2 as [got|e].
  2:{ exists c0, c2. split; [exact A0|]. split; [exact L|]. split; [exact C2|]. left. exists e. reflexivity. }
  change (with_client K conn (with_client K conn f c0) c2) with (with_client K conn f c2) in *.
  destruct (read_loop K pem bits conn got more (with_client K conn f c2)) as [f3 o] eqn:RL.
  destruct (loop_spec more got (with_client K conn f c2) f3 o C2 RL) as (c3 & -> & L3 & D). cbn [with_client d_client] in L3.
  exists c0, c3. split; [exact A0|]. split; [exact (like_trans _ _ _ L L3)|]. split; [destruct L3 as (_ & _ & _ & L3 & _); congruence|]. right.
  destruct o as [o|b].
  - left. exists o. split; [exact D|reflexivity].
  - right. destruct D as [[-> ->]|(x & k & I1 & A & E)].
    + destruct R as (k & A & E). exists b, first, k. split; [now left|]. split; [exact A|]. split; [exact E|reflexivity].
    + exists b, x, k. split; [now right|]. split; [apply (answers_like f c0 c2 x (Ok b) k L); exact A|]. split; [exact E|reflexivity].
Qed.

(** What [receive] does when the client remembers a key. *)
Lemma receive_spec : forall b f k, cl_last K conn (d_client K conn f) = Some k ->
  receive U K conn pair day b f =
  match ac_decode K b false with
  | Err e => (with_cert K conn (with_key K conn f (Some k) (pair k)) (Some b) (d_ac K conn f) (d_tree K conn f), Raised (DPy e))
  | Ok c =>
      let g := with_text K conn (with_response K conn (with_key K conn f (Some k) (pair k)) (RespBytes b)) (TextHex b) in
      match build_tree U day c with
      | Ok rows => (with_cert K conn g (Some b) (Some c) (TreeShown rows), Returned)
      | Err e => (with_cert K conn g (Some b) (Some c) TreeCut, Raised (DPy e))
      end
  end.
Proof. intros b f k E. unfold receive. now rewrite E. Qed.

(** Exporting without signing leaves the certificate. *)
Lemma export_same : forall c fmt, fmt = FText \/ fmt = FBase64Full -> fst (ac_export K c fmt false None default_algo) = c.
Proof.
  intros c fmt [->| ->]; unfold ac_export; [reflexivity|]. unfold ac_encode. destruct (encode_body c); reflexivity.
Qed.
Lemma view_spec : forall fmt show f, fmt = FText \/ fmt = FBase64Full ->
  view_as K conn fmt show f =
  match d_ac K conn f with
  | None => (f, Raised (DPy EAttribute))
  | Some c => match snd (ac_export K c fmt false None default_algo) with
              | Ok (OutStr s) => (with_text K conn f (show s), Returned)
              | Ok (OutBytes _) => (f, Raised (DPy EType))
              | Err e => (f, Raised (DPy e))
              end
  end.
Proof.
  intros fmt show f F. unfold view_as. destruct (d_ac K conn f) as [c|] eqn:A; [|reflexivity]. pose proof (export_same c fmt F) as E.
  destruct (ac_export K c fmt false None default_algo) as [c' r]. cbn [fst snd] in *. subst c'.
  assert (G : with_cert K conn f (d_raw K conn f) (Some c) (d_tree K conn f) = f) by (destruct f; cbn in *; now subst).
  rewrite G. reflexivity.
Qed.

End Demo.
