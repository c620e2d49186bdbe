(** * ClientsLogProps: what the clients record and whom they call (C118) *)

From Coq Require Import NArith ZArith List Bool String Lia.
From Verif Require Import PyBase LexSpec LexProofs LexCase Struct BytesProofs AttCert CertSpec CertProofs CertProofs2 CertProps CertProps2 Config ConfigProps Logging LoggingProps
  PAuth AAuth AAuthSpec AAuthProofs AAuthProps Clients
  AAuthLog ClientsProps ClientsLog.
Import ListNotations.
Open Scope Z_scope.

Section Clients.
Variable U : unicode.
Variable K : crypto.
Variable pem : prv K -> bytes.
Variable bits : prv K -> Z.
Variable conn : Type.
Notation dial := (option str -> option conn).
Notation client := (client K conn).
Notation event := (event conn).

(** ** Specification *)

Definition named (o : option str) : str := match o with Some s => s | None => lit "None" end.
Definition info_rec (t : str) : event := Noted (LRec 20 t).
(** Opening a service of a type. *)
Inductive opens (ty desc : option str) : list event -> Prop :=
| op_ok : ty = Some (lit "JSONWSP") -> opens ty desc [info_rec (lit "Setting up JSONWSP client for service " ++ named desc); Opened desc]
| op_bad : ty <> Some (lit "JSONWSP") -> opens ty desc [Noted (LRec 40 (named ty ++ lit " client type is not yet supported."))].
(** What a program does with a client of an attribute authority. *)
Inductive move (V : Type) : Type :=
| MUpdate (connect : dial) (url ty : option str)
| MInfo (net : conn -> option (reply V))
| MRequest (generate : Z -> res (prv K)) (net : conn -> sent -> option (reply V)) (names ids : option (list (option str))) (key : option (prv K)).
Arguments MUpdate {V}. Arguments MInfo {V}. Arguments MRequest {V}.
Definition step {V} (c : client) (m : move V) : list event * client :=
  match m with
  | MUpdate connect url ty => (fst (n_update K conn connect url ty c), fst (snd (n_update K conn connect url ty c)))
  | MInfo net => (fst (n_info K conn net c), c)
  | MRequest generate net names ids key => (fst (n_request K pem bits conn generate net names ids key c), fst (snd (n_request K pem bits conn generate net names ids key c)))
  end.
Fixpoint trace {V} (l : list (move V)) (c : client) : list event :=
  match l with [] => [] | m :: l => fst (step c m) ++ trace l (snd (step c m)) end.
Definition reached {V} (l : list (move V)) (c : client) : client := fold_left (fun c m => snd (step c m)) l c.
Definition records (l : list event) : list lrec := flat_map (fun e => match e with Noted r => [r] | _ => [] end) l.
(** The key of a request: given, or generated. *)
Definition key_of {V} (m : move V) (size : Z) : option (res (prv K)) :=
  match m with MRequest generate _ _ _ key => Some (match key with Some k => Ok k | None => generate size end) | _ => None end.
Definition fresh_key {V} (m : move V) : bool := match m with MRequest _ _ _ _ None => true | _ => false end.
(** What a move records and does, told without looking at credentials or answers. *)
Inductive does {V} (c : client) : move V -> list event -> Prop :=
| do_update : forall connect url ty l, opens (or_old ty (cl_type K conn c)) (or_old url (cl_desc K conn c)) l ->
    does c (MUpdate connect url ty) (info_rec (lit "Updating service for change of url and/or client type.") :: l)
| do_info : forall net, does c (MInfo net) [info_rec (lit "Calling info method for service " ++ named (cl_desc K conn c)); Called (cl_conn K conn c)]
| do_no_key : forall generate net names ids e, generate (cl_size K conn c) = Err e ->
    does c (MRequest generate net names ids None)
      [info_rec (lit "Generating session key of size " ++ str_of_Z (cl_size K conn c) ++ lit " for attribute request with " ++ named (cl_desc K conn c))]
| do_request : forall generate net names ids key k l1, key_of (MRequest generate net names ids key) (cl_size K conn c) = Some (Ok k) ->
    (key = None -> l1 = [info_rec (lit "Generating session key of size " ++ str_of_Z (cl_size K conn c) ++ lit " for attribute request with " ++ named (cl_desc K conn c))]) ->
    (key <> None -> l1 = []) -> (exists t, utf8_decode (pem k) = Ok t) ->
    does c (MRequest generate net names ids key)
      (l1 ++ [info_rec (lit "Public session key is " ++ bytes_str (pem k));
              info_rec (lit "Calling attribute_request method for service " ++ named (cl_desc K conn c)); Called (cl_conn K conn c)])
| do_bad_key : forall generate net names ids key k l1, key_of (MRequest generate net names ids key) (cl_size K conn c) = Some (Ok k) ->
    (key = None -> l1 = [info_rec (lit "Generating session key of size " ++ str_of_Z (cl_size K conn c) ++ lit " for attribute request with " ++ named (cl_desc K conn c))]) ->
    (key <> None -> l1 = []) -> (forall t, utf8_decode (pem k) <> Ok t) ->
    does c (MRequest generate net names ids key) (l1 ++ [info_rec (lit "Public session key is " ++ bytes_str (pem k))]).

(** ** The same effects *)

Lemma open_same : forall (connect : dial) ty desc, snd (n_open conn connect ty desc) = open_service conn connect ty desc.
Proof. intros connect ty desc. unfold n_open, open_service. destruct (jsonwsp ty); reflexivity. Qed.
Lemma open_says : forall (connect : dial) ty desc, opens ty desc (fst (n_open conn connect ty desc)).
Proof.
  intros connect ty desc. unfold n_open. destruct (jsonwsp ty) eqn:J; cbn [fst].
  - apply jsonwsp_iff in J. now apply op_ok.
  - apply op_bad. intros Q. apply jsonwsp_iff in Q. congruence.
Qed.
Lemma client_same : forall (connect : dial) F given, snd (n_client U K conn connect F given) = new_client U K conn connect F given.
Proof.
  intros connect F given. unfold n_client, new_client. cbv zeta.
  destruct (cconf U F (lit "CLIENT_TYPE") (lit "AAUTH")) as [ty|]; cbn [cbind]; [|reflexivity].
  destruct (cconf U F (lit "SERVICE_DESCRIPTION") (lit "AAUTH")) as [desc|]; cbn [cbind]; [|reflexivity].
  destruct (cconf U F (lit "KEY_SIZE") (lit "AAUTH")) as [size|]; cbn [cbind]; [|reflexivity].
  destruct size as [s|]; cbn [cbind]; [|reflexivity]. destruct (int_base U 10 s) as [z|]; cbn [cbind]; [|reflexivity].
  match goal with |- context [cbind ?x (fun cred : credentials => COk (ty, desc, z, cred))] => destruct x end; cbn [cbind snd]; [|reflexivity].
  rewrite <- (open_same connect). destruct (n_open conn connect ty desc) as [l r]. reflexivity.
Qed.
Lemma update_same : forall (connect : dial) url ty c, snd (n_update K conn connect url ty c) = update_service K conn connect url ty c.
Proof.
  intros connect url ty c. unfold n_update, update_service. cbv zeta. rewrite <- (open_same connect).
  destruct (n_open conn connect (or_old ty (cl_type K conn c)) (or_old url (cl_desc K conn c))) as [l r]. destruct r; reflexivity.
Qed.
Lemma request_same : forall V generate (net : conn -> sent -> option (reply V)) names ids key c,
  snd (n_request K pem bits conn generate net names ids key c) = client_request K pem bits conn generate net names ids key c.
Proof.
  intros V generate net names ids key c. unfold n_request, client_request. cbv zeta. destruct (match key with Some k => Ok k | None => generate (cl_size K conn c) end) as [k|e]; [|reflexivity].
  destruct (utf8_decode (pem k)); reflexivity.
Qed.
(** Recording changes nothing else, in either client. *)
Theorem C118_same :
  (forall (connect : dial) F given, snd (n_client U K conn connect F given) = new_client U K conn connect F given) /\
  (forall (connect : dial) url ty c, snd (n_update K conn connect url ty c) = update_service K conn connect url ty c) /\
  (forall V (net : conn -> option (reply V)) c, snd (n_info K conn net c) = client_info K conn net c) /\
  (forall V generate (net : conn -> sent -> option (reply V)) names ids key c,
     snd (n_request K pem bits conn generate net names ids key c) = client_request K pem bits conn generate net names ids key c) /\
  (forall (connect : dial) F uid, snd (n_pclient U conn connect F uid) = new_pclient U conn connect F uid) /\
  (forall (connect : dial) url ty c, snd (n_pupdate conn connect url ty c) = update_pservice conn connect url ty c) /\
  (forall V (net : conn -> option (reply V)) c, snd (n_pinfo conn net c) = plain_call conn net (pc_conn conn c) /\ snd (n_ptrusted conn net c) = plain_call conn net (pc_conn conn c)) /\
  (forall V (net : conn -> str -> list bytes -> option (reply V)) certs c, snd (n_session conn net certs c) = client_session conn net certs c).
Proof.
  split; [exact client_same|]. split; [exact update_same|]. split; [reflexivity|]. split; [exact request_same|]. split; [|split; [|split; [split; reflexivity|reflexivity]]].
  - intros connect F uid. unfold n_pclient, new_pclient.
    destruct (cconf U F (lit "CLIENT_TYPE") (lit "PAUTH")) as [ty|]; cbn [cbind]; [|reflexivity].
    destruct (cconf U F (lit "SERVICE_DESCRIPTION") (lit "PAUTH")) as [desc|]; cbn [cbind]; [|reflexivity].
    rewrite <- (open_same connect). destruct (n_open conn connect ty desc) as [l r]. reflexivity.
  - intros connect url ty c. unfold n_pupdate, update_pservice. cbv zeta. rewrite <- (open_same connect).
    destruct (n_open conn connect (or_old ty (pc_type conn c)) (or_old url (pc_desc conn c))) as [l r]. destruct r; reflexivity.
Qed.

(** ** What is recorded *)

Lemma step_does : forall V c (m : move V), does c m (fst (step c m)).
Proof.
  intros V c [connect url ty|net|generate net names ids key]; cbn [step fst].
  - unfold n_update. cbv zeta. pose proof (open_says connect (or_old ty (cl_type K conn c)) (or_old url (cl_desc K conn c))) as O.
    destruct (n_open conn connect (or_old ty (cl_type K conn c)) (or_old url (cl_desc K conn c))) as [l r]. cbn [fst] in *. now apply do_update.
  - apply do_info.
  - unfold n_request. cbv zeta. destruct key as [k|].
    + destruct (utf8_decode (pem k)) as [t|e] eqn:D; cbn [fst app].
      * apply (do_request c generate net names ids (Some k) k []); [reflexivity|discriminate|reflexivity|eauto].
      * apply (do_bad_key c generate net names ids (Some k) k []); [reflexivity|discriminate|reflexivity|]. intros t Q. congruence.
    + destruct (generate (cl_size K conn c)) as [k|e] eqn:G.
      * assert (KO : key_of (MRequest generate net names ids None) (cl_size K conn c) = Some (Ok k)) by (cbn [key_of]; now rewrite G).
        destruct (utf8_decode (pem k)) as [t|e] eqn:D; cbn [fst].
        -- rewrite <- app_assoc. refine (do_request c generate net names ids None k _ KO (fun _ => eq_refl) _ (ex_intro _ t D)). congruence.
        -- refine (do_bad_key c generate net names ids None k _ KO (fun _ => eq_refl) _ _); [congruence|]. intros t Q. congruence.
      * exact (do_no_key c generate net names ids e G).
Qed.
Lemma does_fun : forall V c (m : move V) a b, does c m a -> does c m b -> a = b.
Proof.
  intros V c m a b A B.
  assert (OF : forall ty desc x y, opens ty desc x -> opens ty desc y -> x = y) by (intros ty desc x y [H|H] [H'|H']; congruence).
  assert (L : forall (key : option (prv K)) l x x', (key = None -> x = l) -> (key <> None -> x = []) -> (key = None -> x' = l) -> (key <> None -> x' = [] :> list event) -> x = x').
  { intros [k|] l x x' A1 A2 B1 B2; [rewrite A2, B2 by discriminate; reflexivity|rewrite A1, B1 by reflexivity; reflexivity]. }
  inversion A; subst; inversion B; subst; try reflexivity.
  - f_equal. eapply OF; eassumption.
  - cbn [key_of] in *. congruence.
  - cbn [key_of] in *. congruence.
  - cbn [key_of] in *. congruence.
  - match goal with X : key_of _ _ = Some (Ok ?x), Y : key_of _ _ = Some (Ok ?y) |- _ => assert (x = y) by congruence; subst end.
    f_equal. eapply L; eassumption.
  - match goal with X : key_of _ _ = Some (Ok ?x), Y : key_of _ _ = Some (Ok ?y) |- _ => assert (x = y) by congruence; subst end.
    match goal with X : exists t, _, Y : forall t, _ |- _ => destruct X as [t X]; now destruct (Y t) end.
  - cbn [key_of] in *. congruence.
  - match goal with X : key_of _ _ = Some (Ok ?x), Y : key_of _ _ = Some (Ok ?y) |- _ => assert (x = y) by congruence; subst end.
    match goal with X : exists t, _, Y : forall t, _ |- _ => destruct X as [t X]; now destruct (Y t) end.
  - match goal with X : key_of _ _ = Some (Ok ?x), Y : key_of _ _ = Some (Ok ?y) |- _ => assert (x = y) by congruence; subst end.
    f_equal. eapply L; eassumption.
Qed.
(** Each operation records exactly this, whatever the service answers. *)
Theorem C118_says : forall V c (m : move V) l, fst (step c m) = l <-> does c m l.
Proof. intros V c m l. split; [intros <-; apply step_does|]. intros D. exact (does_fun V c m _ _ (step_does V c m) D). Qed.

Lemma trace_app : forall V (a b : list (move V)) c, trace (a ++ b) c = trace a c ++ trace b (reached a c).
Proof.
  intros V. induction a as [|m a IH]; intros b c; [reflexivity|]. cbn [app trace]. rewrite IH, app_assoc. reflexivity.
Qed.
Lemma trace_in : forall V (l : list (move V)) c e, In e (trace l c) <-> exists l1 m l2, l = l1 ++ m :: l2 /\ In e (fst (step (reached l1 c) m)).
Proof.
  intros V l c e. split.
  - revert c. induction l as [|m l IH]; intros c; [intros []|]. cbn [trace]. rewrite in_app_iff. intros [I|I]; [exists [], m, l; auto|].
    destruct (IH _ I) as (l1 & m' & l2 & -> & J). exists (m :: l1), m', l2. auto.
  - intros (l1 & m & l2 & -> & I). rewrite trace_app. apply in_app_iff. right. cbn [trace]. apply in_app_iff. now left.
Qed.
(** Every call, in every run, is made right after a record that names the method and the service the client
    shows at that moment. *)
Theorem C118_calls : forall V (l : list (move V)) c before k after, trace l c = before ++ Called k :: after ->
  exists b l1 m l2 method, before = b ++ [info_rec (lit "Calling " ++ method ++ lit " method for service " ++ named (cl_desc K conn (reached l1 c)))] /\
    l = l1 ++ m :: l2 /\ k = cl_conn K conn (reached l1 c) /\
    match m with MUpdate _ _ _ => False | MInfo _ => method = lit "info" | MRequest _ _ _ _ _ => method = lit "attribute_request" end.
Proof.
  intros V. induction l as [|m l IH]; intros c before k after E; [destruct before; discriminate E|]. cbn [trace] in E.
  assert (S : forall (a b x y : list event), a ++ b = x ++ y -> (exists r, x = a ++ r /\ b = r ++ y) \/ exists r, a = x ++ r /\ y = r ++ b /\ r <> []).
  { induction a as [|z a IHa]; intros b x y H; [left; exists x; auto|]. destruct x as [|z' x]; [right; exists (z :: a); split; [reflexivity|split; [now symmetry|discriminate]]|].
    cbn [app] in H. injection H as <- H. destruct (IHa _ _ _ H) as [(r & -> & ->)|(r & -> & -> & N)]; [left; exists r|right; exists r]; auto. }
  apply S in E as [(r & -> & E)|(r & E & R & N)].
  - destruct (IH _ _ _ _ E) as (b & l1 & m' & l2 & method & -> & -> & -> & M). exists (fst (step c m) ++ b), (m :: l1), m', l2, method.
    split; [now rewrite app_assoc|]. auto.
  - destruct r as [|e r]; [contradiction|]. cbn [app] in R. injection R as <- _.
    assert (X : forall e0 : event, In e0 before -> In e0 (fst (step c m))) by (intros e0 I; rewrite E; apply in_app_iff; now left).
    pose proof (step_does V c m) as D. rewrite E in D. clear X E.
    assert (T : forall (x : list event) a b, x ++ [a; b] = before ++ Called k :: r -> (forall j, ~ In (Called j) (x ++ [a])) -> before = x ++ [a] /\ b = Called k).
    { intros x a b H NC. destruct r as [|e r] using rev_ind.
      - change [a; b] with ([a] ++ [b]) in H. rewrite app_assoc in H. apply app_inj_tail in H as [H ->]. auto.
      - exfalso. change [a; b] with ([a] ++ [b]) in H. rewrite app_assoc, app_comm_cons, app_assoc in H. apply app_inj_tail in H as [H _]. apply (NC k). rewrite H. apply in_app_iff. right. now left. }
    assert (NC : forall x : list event, (forall e0, In e0 x -> forall j, e0 <> Called j) -> x = before ++ Called k :: r -> False).
    { intros x H ->. apply (H (Called k)) with k; [apply in_app_iff; right; now left|reflexivity]. }
    inversion D as [connect url ty x O Em Ex|net Em Ex|generate net names ids e0 G Em Ex|generate net names ids key k0 l1 KO L1 L2 DE Em Ex|generate net names ids key k0 l1 KO L1 L2 DE Em Ex]; subst m.
    + exfalso. refine (NC _ _ Ex). inversion O; subst; cbn [In]; intros e0 I; repeat (destruct I as [<-|I]; [discriminate|]); destruct I.
    + assert (B : before = [info_rec (lit "Calling info method for service " ++ named (cl_desc K conn c))] /\ Called (cl_conn K conn c) = Called k).
      { apply (T []); [exact Ex|]. intros j [Q|[]]. discriminate Q. }
      destruct B as [-> B]. injection B as <-. exists [], [], (MInfo net), l, (lit "info"). cbn [reached fold_left app]. auto.
    + exfalso. refine (NC _ _ Ex). intros e1 [<-|[]] j. discriminate.
    + assert (NL : forall j, ~ In (Called j) l1) by (intros j I; destruct key; [rewrite L2 in I by discriminate; destruct I|rewrite L1 in I by reflexivity; destruct I as [I|[]]; discriminate I]).
      change [?a; ?b; ?d] with ([a] ++ [b; d]) in Ex. rewrite app_assoc in Ex.
      apply T in Ex.
      2:{ intros j I. rewrite !in_app_iff in I. destruct I as [[I|[I|[]]]|[I|[]]]; [now apply NL in I|discriminate I|discriminate I]. }
      destruct Ex as [-> B]. injection B as <-. exists (l1 ++ [info_rec (lit "Public session key is " ++ bytes_str (pem k0))]), [], (MRequest generate net names ids key), l, (lit "attribute_request").
      cbn [reached fold_left]. auto.
    + exfalso. refine (NC _ _ Ex). intros e1 I j. apply in_app_iff in I as [I|[<-|[]]]; [|discriminate].
      destruct key; [rewrite L2 in I by discriminate; destruct I|rewrite L1 in I by reflexivity; destruct I as [<-|[]]; discriminate].
Qed.
Lemma reached_after : forall V (l : list (move V)) c,
  reached l c = after K pem bits conn (flat_map (fun m => match m with MUpdate connect url ty => [UUpdate K conn V connect url ty] | MInfo _ => [] | MRequest g net names ids key => [URequest K conn V g net names ids key] end) l) c.
Proof.
  intros V. induction l as [|m l IH]; intros c; [reflexivity|]. cbn [reached fold_left flat_map]. rewrite after_app.
  change (fold_left (fun c m => snd (step c m)) l (snd (step c m))) with (reached l (snd (step c m))). rewrite IH. f_equal.
  destruct m as [connect url ty|net|g net names ids key]; cbn [step snd after fold_left after1]; [now rewrite update_same|reflexivity|now rewrite request_same].
Qed.
(** As long as no update raises, that is the service called. *)
Theorem C118_named : forall V (l : list (move V)) c (P : option str -> conn -> Prop), P (cl_desc K conn c) (cl_conn K conn c) ->
  (forall connect url ty, In (MUpdate connect url ty) l -> forall d k, connect d = Some k -> P d k) ->
  (forall l1 connect url ty l2, l = l1 ++ MUpdate connect url ty :: l2 -> snd (update_service K conn connect url ty (reached l1 c)) = COk tt) ->
  forall before k after, trace l c = before ++ Called k :: after ->
    exists b method d, before = b ++ [info_rec (lit "Calling " ++ method ++ lit " method for service " ++ named d)] /\ P d k.
Proof.
  intros V l c P H0 H1 H2 before k aft E. destruct (C118_calls V l c before k aft E) as (b & l1 & m & l2 & method & -> & -> & -> & _). exists b, method, (cl_desc K conn (reached l1 c)).
  split; [reflexivity|]. clear E.
  assert (G : forall (l1 : list (move V)) c, P (cl_desc K conn c) (cl_conn K conn c) ->
    (forall connect url ty, In (MUpdate connect url ty) l1 -> forall d k, connect d = Some k -> P d k) ->
    (forall m1 connect url ty m2, l1 = m1 ++ MUpdate connect url ty :: m2 -> snd (update_service K conn connect url ty (reached m1 c)) = COk tt) ->
    P (cl_desc K conn (reached l1 c)) (cl_conn K conn (reached l1 c))).
  { clear. induction l1 as [|m l IH]; intros c H0 H1 H2; [exact H0|]. change (reached (m :: l) c) with (reached l (snd (step c m))). apply IH.
    - destruct m as [connect url ty|net|g net names ids key]; cbn [step snd]; [|exact H0|].
      + rewrite update_same. pose proof (H2 [] connect url ty l eq_refl) as U1. cbn [reached fold_left] in U1. unfold update_service in *. cbv zeta in *.
        destruct (open_service conn connect (or_old ty (cl_type K conn c)) (or_old url (cl_desc K conn c))) as [k|e] eqn:O; cbn [fst snd cl_desc cl_conn] in *; [|discriminate].
        apply open_iff in O as [_ O]. exact (H1 connect url ty (or_introl eq_refl) _ _ O).
      + rewrite request_same. destruct (request_keeps K pem bits conn V g net names ids key c) as (_ & -> & _ & _ & ->). exact H0.
    - intros connect url ty I. apply (H1 connect url ty). now right.
    - intros m1 connect url ty m2 ->. exact (H2 (m :: m1) connect url ty m2 eq_refl). }
  apply G; [exact H0| |].
  - intros connect url ty I. apply (H1 connect url ty). apply in_app_iff. now left.
  - intros m1 connect url ty m2 ->. apply (H2 m1 connect url ty (m2 ++ m :: l2)). now rewrite <- app_assoc.
Qed.

(** ** Secrets *)

Definition same_pem (x y : res (prv K)) : Prop := match x, y with Ok a, Ok b => pem a = pem b | Err _, Err _ => True | _, _ => False end.
(** Moves that differ only in what the net does, in private keys and in the attributes asked for. *)
Inductive alike {V} : move V -> move V -> Prop :=
| al_update : forall c c' url ty, alike (MUpdate c url ty) (MUpdate c' url ty)
| al_info : forall n n', alike (MInfo n) (MInfo n')
| al_new : forall g g' n n' a a' i i', (forall z, same_pem (g z) (g' z)) -> alike (MRequest g n a i None) (MRequest g' n' a' i' None)
| al_given : forall g g' n n' a a' i i' k k', pem k = pem k' -> alike (MRequest g n a i (Some k)) (MRequest g' n' a' i' (Some k')).
(** Records depend on neither credentials nor private keys nor answers. *)
Theorem C118_secret : forall V (l l' : list (move V)), Forall2 alike l l' -> forall c c',
  cl_desc K conn c = cl_desc K conn c' -> cl_type K conn c = cl_type K conn c' -> cl_size K conn c = cl_size K conn c' ->
  records (trace l c) = records (trace l' c').
Proof.
  intros V l l' H. induction H as [|m m' l l' A F IH]; intros c c' D T S; [reflexivity|]. cbn [trace]. unfold records. rewrite !flat_map_app.
  assert (X : records (fst (step c m)) = records (fst (step c' m')) /\ cl_desc K conn (snd (step c m)) = cl_desc K conn (snd (step c' m')) /\
    cl_type K conn (snd (step c m)) = cl_type K conn (snd (step c' m')) /\ cl_size K conn (snd (step c m)) = cl_size K conn (snd (step c' m'))).
  { destruct A as [k k' url ty|n n'|g g' n n' a a' i i' G|g g' n n' a a' i i' k k' P]; cbn [step fst snd].
    - unfold n_update, n_open. cbv zeta. rewrite <- T, <- D. destruct (jsonwsp (or_old ty (cl_type K conn c))); cbn [fst snd].
      + destruct (k (or_old url (cl_desc K conn c))), (k' (or_old url (cl_desc K conn c))); auto.
      + auto.
    - unfold n_info, n_call. cbn [fst]. rewrite <- D. auto.
    - rewrite !request_same. destruct (request_keeps K pem bits conn V g n a i None c) as (-> & -> & -> & _ & _).
      destruct (request_keeps K pem bits conn V g' n' a' i' None c') as (-> & -> & -> & _ & _). split; [|auto].
      unfold n_request. cbv zeta. rewrite <- S, <- D. specialize (G (cl_size K conn c)). destruct (g (cl_size K conn c)) as [x|], (g' (cl_size K conn c)) as [y|]; cbn [same_pem] in G; try contradiction; [|reflexivity].
      rewrite <- G. destruct (utf8_decode (pem x)); reflexivity.
    - rewrite !request_same. destruct (request_keeps K pem bits conn V g n a i (Some k) c) as (-> & -> & -> & _ & _).
      destruct (request_keeps K pem bits conn V g' n' a' i' (Some k') c') as (-> & -> & -> & _ & _). split; [|auto].
      unfold n_request. cbv zeta. rewrite <- P, <- D. destruct (utf8_decode (pem k)); reflexivity. }
  destruct X as (X1 & X2 & X3 & X4). unfold records in X1. rewrite X1. f_equal. exact (IH _ _ X2 X3 X4).
Qed.
(** The only records above INFO are those of an unsupported type. *)
Theorem C118_errors : forall V (l : list (move V)) c r, In (Noted r) (trace l c) ->
  lr_level r = 20 \/
  (lr_level r = 40 /\ exists l1 connect url ty l2, l = l1 ++ MUpdate connect url ty :: l2 /\
     or_old ty (cl_type K conn (reached l1 c)) <> Some (lit "JSONWSP") /\
     lr_text r = named (or_old ty (cl_type K conn (reached l1 c))) ++ lit " client type is not yet supported." /\
     snd (update_service K conn connect url ty (reached l1 c)) = CBad CType).
Proof.
  intros V l c r I. apply trace_in in I as (l1 & m & l2 & -> & I). pose proof (step_does V (reached l1 c) m) as D.
  assert (KL : forall (key : option (prv K)) x (t : str), (key = None -> x = [info_rec t]) -> (key <> None -> x = []) -> In (Noted r) x -> lr_level r = 20).
  { intros [k|] x t A B J; [rewrite B in J by discriminate; destruct J|rewrite A in J by reflexivity; destruct J as [J|[]]; injection J as <-; reflexivity]. }
  revert I. destruct D as [connect url ty x O|net|generate net names ids e0 G|generate net names ids key k0 x KO L1 L2 DE|generate net names ids key k0 x KO L1 L2 DE]; intros I.
  - destruct I as [I|I]; [injection I as <-; now left|]. destruct O as [E|N].
    + destruct I as [I|[I|[]]]; [injection I as <-; now left|discriminate I].
    + destruct I as [I|[]]. injection I as <-. right. split; [reflexivity|]. exists l1, connect, url, ty, l2. split; [reflexivity|]. split; [exact N|]. split; [reflexivity|].
      unfold update_service. cbv zeta. unfold open_service. destruct (jsonwsp _) eqn:J; [apply jsonwsp_iff in J; contradiction|reflexivity].
  - destruct I as [I|[I|[]]]; [injection I as <-; now left|discriminate I].
  - destruct I as [I|[]]. injection I as <-. now left.
  - left. apply in_app_iff in I as [I|I]; [exact (KL key x _ L1 L2 I)|]. destruct I as [I|[I|[I|[]]]]; [injection I as <-; reflexivity|injection I as <-; reflexivity|discriminate I].
  - left. apply in_app_iff in I as [I|I]; [exact (KL key x _ L1 L2 I)|]. destruct I as [I|[]]; injection I as <-; reflexivity.
Qed.
(** The client of the policy authority records the same way. *)
Theorem C118_policy : forall V (c : pclient conn),
  (forall (connect : dial) F uid ty desc, client_opt U F "PAUTH" "CLIENT_TYPE" ty -> client_opt U F "PAUTH" "SERVICE_DESCRIPTION" desc -> file_ok F ->
     opens ty desc (fst (n_pclient U conn connect F uid))) /\
  (forall (connect : dial) url ty, exists l, opens (or_old ty (pc_type conn c)) (or_old url (pc_desc conn c)) l /\
     fst (n_pupdate conn connect url ty c) = info_rec (lit "Updating service for change of url and/or client type.") :: l) /\
  (forall net : conn -> option (reply V),
     fst (n_pinfo conn net c) = [info_rec (lit "Calling info method for service " ++ named (pc_desc conn c)); Called (pc_conn conn c)] /\
     fst (n_ptrusted conn net c) = [info_rec (lit "Calling trusted_attribute_authorities method for service " ++ named (pc_desc conn c)); Called (pc_conn conn c)]) /\
  (forall (net : conn -> str -> list bytes -> option (reply V)) certs,
     fst (n_session conn net certs c) = [info_rec (lit "Calling start_session method for service " ++ named (pc_desc conn c)); Called (pc_conn conn c)]).
Proof.
  intros V c. split; [|split; [|split; [split; reflexivity|reflexivity]]].
  - intros connect F uid ty desc A B FO. unfold n_pclient. unfold client_opt in *.
    apply (cconf_value U F (lit "CLIENT_TYPE")) in A; [|exact FO|reflexivity]. apply (cconf_value U F (lit "SERVICE_DESCRIPTION")) in B; [|exact FO|reflexivity].
    rewrite A, B. cbn [cbind]. pose proof (open_says connect ty desc) as O. destruct (n_open conn connect ty desc). exact O.
  - intros connect url ty. unfold n_pupdate. cbv zeta. pose proof (open_says connect (or_old ty (pc_type conn c)) (or_old url (pc_desc conn c))) as O.
    destruct (n_open conn connect (or_old ty (pc_type conn c)) (or_old url (pc_desc conn c))) as [l r]. exists l. auto.
Qed.
(** A client of the attribute authority: once every option is read, and not before. *)
Theorem C118_created : forall (connect : dial) F given, file_ok F -> decimals_ok U ->
  (forall ty desc s z, client_opt U F "AAUTH" "CLIENT_TYPE" ty -> client_opt U F "AAUTH" "SERVICE_DESCRIPTION" desc ->
     client_opt U F "AAUTH" "KEY_SIZE" (Some s) -> int_literal U 10 s z ->
     (given = None -> exists t u p, client_opt U F "AAUTH" "CRED_TYPE" t /\ client_opt U F "AAUTH" "CRED_USER" u /\ client_opt U F "AAUTH" "CRED_PASS" p) ->
     opens ty desc (fst (n_client U K conn connect F given))) /\
  ((forall s, client_opt U F "AAUTH" "KEY_SIZE" (Some s) -> forall z, ~ int_literal U 10 s z) -> fst (n_client U K conn connect F given) = []).
Proof.
  intros connect F given FO DO.
  assert (R : forall name v, upper_stable U name -> cconf U F name (lit "AAUTH") = COk v <-> conf_value U F client_defaults name (lit "AAUTH") v)
    by (intros; now apply cconf_value).
  unfold client_opt, n_client. cbv zeta. split.
  - intros ty desc s z T D S I C. apply R in T; [|reflexivity]. apply R in D; [|reflexivity]. apply R in S; [|reflexivity]. apply (int_base_spec U DO) in I.
    rewrite T, D, S. cbn [cbind]. rewrite I. cbn [cbind].
    assert (X : exists cred, match given with Some c => COk c | None => cbind (cconf U F (lit "CRED_TYPE") (lit "AAUTH")) (fun t => cbind (cconf U F (lit "CRED_USER") (lit "AAUTH")) (fun u => cbind (cconf U F (lit "CRED_PASS") (lit "AAUTH")) (fun p => COk (Cred t u p)))) end = COk cred).
    { destruct given as [g|]; [now exists g|]. destruct (C eq_refl) as (t & u & p & C1 & C2 & C3). apply R in C1; [|reflexivity]. apply R in C2; [|reflexivity]. apply R in C3; [|reflexivity].
      rewrite C1, C2, C3. eexists. reflexivity. }
    destruct X as [cred ->]. cbn [cbind]. pose proof (open_says connect ty desc) as O. destruct (n_open conn connect ty desc). exact O.
  - intros N. destruct (cconf U F (lit "CLIENT_TYPE") (lit "AAUTH")) as [ty|]; [|reflexivity].
    destruct (cconf U F (lit "SERVICE_DESCRIPTION") (lit "AAUTH")) as [desc|]; [|reflexivity]. cbn [cbind].
    destruct (cconf U F (lit "KEY_SIZE") (lit "AAUTH")) as [[s|]|] eqn:S; [|reflexivity|reflexivity]. apply R in S; [|reflexivity]. cbn [cbind].
    destruct (int_base U 10 s) as [z|] eqn:I; [|reflexivity]. apply (int_base_spec U DO) in I. now destruct (N s S z).
Qed.
End Clients.
Print Assumptions C118_same.
Print Assumptions C118_says.
Print Assumptions C118_calls.
Print Assumptions C118_named.
Print Assumptions C118_secret.
Print Assumptions C118_errors.
Print Assumptions C118_policy.
Print Assumptions C118_created.

(** ** Concrete runs *)

Notation XUpdate := (@MUpdate toy str issued). Notation XInfo := (@MInfo toy str issued). Notation XRequest := (@MRequest toy str issued).
Definition ex_trace := @trace toy ex_pem (fun _ => 2048) str issued.
Definition ex_made (c : client toy str) : Prop := new_client ascii_only toy str ex_conn shipped_clients None = COk c.
(** After an update that raises, the record names a service that is not the one called. *)
Theorem C118_named_refuted : exists c k d, ex_made c /\
  ex_trace [XUpdate ex_conn (Some (lit "http://down/")) None; XInfo (fun _ => None)] c =
    [Noted (LRec 20 (lit "Updating service for change of url and/or client type."));
     Noted (LRec 20 (lit "Setting up JSONWSP client for service http://down/")); Opened (Some (lit "http://down/"));
     Noted (LRec 20 (lit "Calling info method for service http://down/")); Called k] /\
  ex_conn (Some d) = Some k /\ d <> lit "http://down/".
Proof.
  destruct (new_client ascii_only toy str ex_conn shipped_clients None) as [c|] eqn:E; [|vm_compute in E; discriminate E].
  exists c, (cl_conn toy str c), (cl_conn toy str c). split; [exact E|]. vm_compute in E. injection E as <-. split; [reflexivity|]. split; [reflexivity|discriminate].
Qed.
Print Assumptions C118_named_refuted.
(** A request that fails is not recorded as failed: all that is kept is that it was made. *)
Theorem C118_failed_refuted : exists c l, ex_made c /\
  ex_trace [XRequest (fun _ => Ok 8%N) (fun _ _ => Some (Reply 500 None None)) (Some []) (Some []) None] c = l /\
  ex_trace [XRequest (fun _ => Ok 8%N) ex_net (Some []) (Some []) None] c = l /\
  (forall r, In (Noted r) l -> lr_level r = 20) /\
  snd (client_request toy ex_pem (fun _ => 2048) str (V:=issued) (fun _ => Ok 8%N) (fun _ _ => Some (Reply 500 None None)) (Some []) (Some []) None c) = CBad CStatus.
Proof.
  destruct (new_client ascii_only toy str ex_conn shipped_clients None) as [c|] eqn:E; [|vm_compute in E; discriminate E].
  exists c. eexists. split; [exact E|]. split; [reflexivity|]. vm_compute in E. injection E as <-. split; [vm_compute; reflexivity|]. split; [|reflexivity].
  intros r I. vm_compute in I. repeat (destruct I as [I|I]; [try discriminate I; injection I as <-; reflexivity|]). destruct I.
Qed.
Print Assumptions C118_failed_refuted.
(** A request with a fresh key, a move to another service, one with the old key, and a type that does not exist. *)
Example ex_records : exists c, ex_made c /\
  records str (ex_trace [XRequest (fun _ => Ok 8%N) ex_net (Some []) (Some []) None; XUpdate ex_conn (Some (lit "http://other/")) None;
                         XRequest (fun _ => Ok 5%N) ex_net None None (Some 8%N); XUpdate ex_conn None (Some (lit "SOAP"))] c) =
  [LRec 20 (lit "Generating session key of size 2048 for attribute request with http://localhost:8888/AttributeAuthority/jsonwsp/description");
   LRec 20 (lit "Public session key is b'\t'");
   LRec 20 (lit "Calling attribute_request method for service http://localhost:8888/AttributeAuthority/jsonwsp/description");
   LRec 20 (lit "Updating service for change of url and/or client type.");
   LRec 20 (lit "Setting up JSONWSP client for service http://other/");
   LRec 20 (lit "Public session key is b'\t'");
   LRec 20 (lit "Calling attribute_request method for service http://other/");
   LRec 20 (lit "Updating service for change of url and/or client type.");
   LRec 40 (lit "SOAP client type is not yet supported.")].
Proof.
  destruct (new_client ascii_only toy str ex_conn shipped_clients None) as [c|] eqn:E; [|vm_compute in E; discriminate E].
  exists c. split; [exact E|]. vm_compute in E. injection E as <-. vm_compute. reflexivity.
Qed.
(** Two users with different passwords and private keys, one of them refused, leave the same records. *)
Definition ex_pem2 (k : prv toy) : bytes := if (k <? 10)%N then [65%N] else [66%N].
Example ex_secret : forall c, let c' := Client toy str (cl_type toy str c) (cl_desc toy str c) (cl_size toy str c) (Some 3%N) (Cred None None (Some (lit "other"))) (cl_conn toy str c) in
  records str (trace toy ex_pem2 (fun _ => 2048) str (V:=issued) [XRequest (fun _ => Ok 8%N) ex_net (Some []) (Some []) None] c) =
  records str (trace toy ex_pem2 (fun _ => 2048) str (V:=issued) [XRequest (fun _ => Ok 5%N) (fun _ _ => None) None None None] c').
Proof.
  intros c c'. apply C118_secret; [|reflexivity|reflexivity|reflexivity]. constructor; [|constructor]. apply al_new. intros z. vm_compute. reflexivity.
Qed.
(** A configuration whose key size is not a number: nothing is recorded. *)
Example ex_nothing : exists F, file_ok F /\ n_client ascii_only toy str ex_conn F None = ([], CBad (CPy EValue)).
Proof.
  exists {| f_default := []; f_sections := [(lit "AAUTH", ini [("client_type", "JSONWSP"); ("service_description", "http://a/"); ("key_size", "2k")]%string)] |}.
  split; [|vm_compute; reflexivity]. intros [Q|[]]. vm_compute in Q. discriminate Q.
Qed.
