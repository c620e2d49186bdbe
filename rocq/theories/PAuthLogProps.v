(** * PAuthLogProps: what the policy authority records and tells its clients (C115, C116) *)

From Coq Require Import NArith ZArith List Bool String Lia.
From Verif Require Import PyBase PyNum AttCert Errors ErrorProps ShowSpec ShowProofs3 BytesProofs ShownProps Lexer LexSpec LexProofs LexProps Values Ast Parser
  Grammar ParsePos Syntax ParseProps TypeCheck TypeSpec TypeProofs TypeProps
  Diag DiagSpec LexDiag LexDiagSpec TypeDiag TypeDiagSpec CertSpec CertProps CertProps2 ConfigProps
  PAuth PAuthSpec PAuthProofs PAuthProps AAuthLog AAuthLogSpec AAuthLogProofs PAuthLog PAuthLogSpec PAuthLogProofs PAuthLogProofs2.
Import ListNotations.
Open Scope Z_scope.

(** ** C115: start_session *)

(** Without the records and the texts it is the function of C43 to C48 and C62, C63. *)
Theorem C115_same : forall K a d service set sid now,
  forget (l_start_session K (Some a) d service set sid now) = start_session_res K d service set sid now a.
Proof. exact start_same. Qed.
Print Assumptions C115_same.

(** A request is refused exactly if it has no certificates or a certificate is not passed; the client is told
    why the first such is not, and this is the only thing recorded. *)
Theorem C115_refused : forall K a d service set sid now recs t, keys_ok d -> sid_ok sid ->
  (l_start_session K (Some a) d service set sid now = (recs, inr (Fault t)) <->
   exists log, not_started K d now a set log t /\ recs = [LRec 40 log]).
Proof.
  intros K a d service set sid now recs t KO SO. split.
  - intros H. apply start_told in H; [|exact KO|exact SO]. destruct H as (log & -> & H). eauto.
  - intros (log & H & ->). now apply not_started_told.
Qed.
Print Assumptions C115_refused.

(** A started session is recorded once; a request that fails with an exception of Python leaves no record or
    that of a started session. *)
Theorem C115_records : forall K a d service set sid now, keys_ok d -> sid_ok sid ->
  let adding := LRec 20 (lit "Adding session and attribute certs as result of start_session request from " ++ a) in
  let '(recs, x) := l_start_session K (Some a) d service set sid now in
  match x with
  | inl _ => recs = [adding]
  | inr (Fault _) => exists log, recs = [LRec 40 log]
  | inr (Crash e) => e = EValue /\ recs = [] \/ e = EIntegrity /\ recs = [adding]
  end.
Proof.
  intros K a d service set sid now KO SO. cbv zeta. destruct (l_start_session K (Some a) d service set sid now) as [recs x] eqn:H.
  apply start_told in H; [|exact KO|exact SO]. destruct x as [y|[t|e]]; [exact H| |exact H]. destruct H as (log & -> & _). eauto.
Qed.
Print Assumptions C115_records.

(** "Adding session" can be recorded though nothing was added. *)
Theorem C115_added_refuted : exists K a d service set sid now, keys_ok d /\ sid_ok sid /\
  fst (l_start_session K (Some a) d service set sid now) =
    [LRec 20 (lit "Adding session and attribute certs as result of start_session request from " ++ a)] /\
  start_session K d service set sid now a = (d, Err EIntegrity).
Proof.
  exists toy, (lit "10.0.0.1"), ex_db, (Some (lit "svc")), (Some (Some [ex_raw FBytes 0 5 2000; ex_raw FBytes 0 5 2000])), 77, (ex_now 1500).
  split; [exact ex_keys|]. split; [unfold sid_ok; lia|]. split; [vm_compute; reflexivity|exact ex_twice].
Qed.
Print Assumptions C115_added_refuted.

(** An expired certificate is recorded as one of an evaluate request. *)
Theorem C115_expired_refuted : exists K a d service set sid now, keys_ok d /\ sid_ok sid /\
  l_start_session K (Some a) d service set sid now =
    ([LRec 40 (lit "ClientFault: ac is expired in evaluate from " ++ a)], inr (Fault (lit "An attribute certificate in your certificate set is expired."))).
Proof.
  exists toy, (lit "10.0.0.1"), ex_db, (Some (lit "svc")), (Some (Some [ex_raw FBytes 0 5 2000])), 77, (ex_now 2500).
  split; [exact ex_keys|]. split; [unfold sid_ok; lia|]. vm_compute; reflexivity.
Qed.
Print Assumptions C115_expired_refuted.

(** Where the server gives no REMOTE_ADDR no session starts, no fault is told and nothing is recorded. *)
Theorem C115_no_addr : forall K d service set sid now,
  exists e, l_start_session K None d service set sid now = ([], inr (Crash e)).
Proof.
  intros K d service set sid now. unfold l_start_session. cbv zeta. destruct set as [[[|r l]|]|]; try (eexists; reflexivity).
  destruct (int_to_b64 sid) as [b|e]; [|eexists; reflexivity]. rewrite ok_bind.
  destruct (l_session_loop K None d b now 0 (r :: l) (LS (-1) (-1) [] [] [])) as [rs [st|[t|e]]] eqn:L; pose proof (loop_no_addr _ _ _ _ _ _ _ _ _ L) as [-> N].
  - rewrite (bind_inl _ _ _ _ _ _ eq_refl). destruct (ls_done st); eexists; reflexivity.
  - now specialize (N t).
  - rewrite (bind_inr _ _ _ _ _ _ eq_refl). eauto.
Qed.
Print Assumptions C115_no_addr.

(** The reasons exclude each other: what is recorded and told is determined by the request. *)
Theorem C115_one_reason : forall K a d now set log t log' t', keys_ok d ->
  not_started K d now a set log t -> not_started K d now a set log' t' -> log = log' /\ t = t'.
Proof.
  intros K a d now set log t log' t' KO H H'. assert (SO : sid_ok 77) by (unfold sid_ok; lia).
  apply (not_started_told K a d None set 77 now) in H; [|exact KO|exact SO]. apply (not_started_told K a d None set 77 now) in H'; [|exact KO|exact SO].
  rewrite H in H'. apply lw_inj in H' as [H1 H2]. apply inr_inj in H2. apply fault_inj in H2. split; [|exact H2]. congruence.
Qed.
Print Assumptions C115_one_reason.

Example ex_refusals : let run set now := l_start_session toy (Some (lit "10.0.0.1")) ex_db (Some (lit "svc")) set 77 (ex_now now) in
  run (Some (Some [])) 1500 = ([LRec 40 (lit "ClientFault: No att cert set in start_session request from 10.0.0.1")],
    inr (Fault (lit "Need attribute certificate set to start session."))) /\
  run (Some (Some [ex_raw FBytes 0 5 2000; Raw [] 2 0])) 1500 = ([LRec 40 (lit "ClientFault: Invalid ac version in request from 10.0.0.1")],
    inr (Fault (lit "Unsupported attribute certificate version in certificate set."))) /\
  run (Some (Some [ex_raw FBytes 0 5 2000; Raw [1%N] 1 0])) 1500 = ([LRec 40 (lit "ClientFault: Could not verify ac in request from 10.0.0.1")],
    inr (Fault (lit "Could to verify signature of attribute certificate in certificate set."))) /\
  fst (run (Some (Some [ex_raw FBytes 0 5 2000; ex_raw FBase64 3 6 3000])) 1500) =
    [LRec 20 (lit "Adding session and attribute certs as result of start_session request from 10.0.0.1")].
Proof. vm_compute. repeat split. Qed.
(** A request of the theorem: the first certificate passes, the second has another version. *)
Example ex_not_started : keys_ok ex_db /\ sid_ok 77 /\
  not_started toy ex_db (ex_now 1500) (lit "10.0.0.1") (Some (Some [ex_raw FBytes 0 5 2000; Raw [] 2 0]))
    (lit "ClientFault: Invalid ac version in request from " ++ lit "10.0.0.1") (lit "Unsupported attribute certificate version in certificate set.").
Proof.
  split; [exact ex_keys|]. split; [unfold sid_ok; lia|]. apply (ns_cert toy ex_db (ex_now 1500) (lit "10.0.0.1") [ex_raw FBytes 0 5 2000] (Raw [] 2 0) []).
  - intros [|[|i]] x H; try discriminate. injection H as <-. eexists. split; [exact (proj1 ex_accepted)|intros row []].
  - constructor; cbn; lia.
Qed.

(** ** C116: evaluate *)

Theorem C116_same : forall U a other same_id d sid p,
  forget (l_evaluate U (Some a) other same_id d sid p) = evaluate U same_id d sid p.
Proof. exact evaluate_same. Qed.
Print Assumptions C116_same.

(** What is said of a policy that is not accepted: the text of its first error in the order of lexing, parsing
    and type checking; warnings of the type checker count. *)
Theorem C116_policy : forall U other text m, unicode_ok U ->
  (forall a n p, parse_text U text (-1) = Ok (a, n) -> abs (erase a) = Some p -> steady U (attributes p)) ->
  (policy_error U other text = Some m <-> complaint U other text m).
Proof. intros U other text m uok names. now apply policy_told. Qed.
Print Assumptions C116_policy.

(** The condition on names holds of every policy in ASCII. *)
Theorem C116_ascii : forall U text a n p, unicode_ok U -> is_ascii text = true ->
  parse_text U text (-1) = Ok (a, n) -> abs (erase a) = Some p -> steady U (attributes p).
Proof.
  intros U text a n p uok H P A. destruct (C17_ascii_text U text (-1) n a uok P H) as (q & Hq & N & _). rewrite A in Hq. injection Hq as <-. now apply C14_ascii_steady.
Qed.
Print Assumptions C116_ascii.

(** A policy is accepted exactly if it can be read and no comparison of it is ill typed or doubtful. *)
Theorem C116_accepted : forall U other text, unicode_ok U ->
  (forall a n p, parse_text U text (-1) = Ok (a, n) -> abs (erase a) = Some p -> steady U (attributes p)) ->
  (policy_error U other text = None <-> exists a n, parse_text U text (-1) = Ok (a, n) /\ remarks U [] (comparisons (erase a)) []).
Proof.
  intros U other text uok names. pose proof (first_issue U uok text names) as FI. clear names. rewrite policy_good. unfold check_policy. split.
  - destruct (parse_text U text (-1)) as [[a n]|] eqn:P; [|discriminate]. rewrite <- check_plain. destruct (FI a n eq_refl) as (xs & R & -> & _).
    destruct xs as [|x xs]; [|discriminate]. intros _. exists a, n. split; [reflexivity|]. now apply R.
  - intros (a & n & P & Q). rewrite P. rewrite <- check_plain. destruct (FI a n P) as (xs & R & -> & _). apply R in Q. subst xs. reflexivity.
Qed.
Print Assumptions C116_accepted.

(** evaluate ends with one of its five faults, which is recorded with the address, or with an AttributeError and
    no record. *)
Theorem C116_refused : forall U a other same_id d sid p, unicode_ok U ->
  (forall s t n q, pr_string p = Has (Some s) -> parse_text U s (-1) = Ok (t, n) -> abs (erase t) = Some q -> steady U (attributes q)) ->
  forall recs x, l_evaluate U (Some a) other same_id d sid p = (recs, x) <->
    (exists log t, not_evaluated U other same_id d sid a p log t /\ recs = [LRec 40 log] /\ x = inr (Fault t)) \/
    (recs = [] /\ x = inr (Crash EAttribute) /\ forall log t, ~ not_evaluated U other same_id d sid a p log t).
Proof.
  intros U a other same_id d sid p uok names recs x. pose proof (evaluate_told U a other same_id d sid p uok names) as T. destruct x as [y|x].
  - split.
    + intros H. exfalso. pose proof (evaluate_same U a other same_id d sid p) as S. rewrite H in S. destruct (C49_raises U same_id d sid p) as (e & E & _).
      rewrite E in S. discriminate.
    + intros [(log & t & _ & _ & Q)|(_ & Q & _)]; discriminate.
  - rewrite (T recs x). split.
    + intros [(log & t & N & -> & ->)|(-> & -> & N)]; [left; eauto|right; auto].
    + intros [(log & t & N & -> & Q)|(-> & Q & N)]; apply inr_inj in Q; subst x; [left; eauto|right; auto].
Qed.
Print Assumptions C116_refused.

(** The text of a policy can bring a line break into the record. *)
Theorem C116_line_refuted : exists U a other same_id d sid p log t, unicode_ok U /\ ~ In 10%N a /\
  l_evaluate U (Some a) other same_id d sid p = ([LRec 40 log], inr (Fault t)) /\ In 10%N log.
Proof.
  exists ascii_only, (lit "10.0.0.1"), (fun _ => []), (fun _ _ => true), ex_db1, 77, (PairObj (Has None) (Has (Some (lit "1 = 1" ++ [10%N] ++ lit "ClientFault"))) (Has None)).
  eexists _, _. split; [|split; [|split; [vm_compute; reflexivity|]]].
  - exact ascii_only_ok.
  - vm_compute. intros H. repeat (destruct H as [H|H]; [discriminate|]). destruct H.
  - vm_compute. repeat (try (left; reflexivity); right).
Qed.
Print Assumptions C116_line_refuted.

(** A warning refuses a policy. *)
Example ex_doubtful : let policy := lit "user.age > 5 AND user.age = ""x""" in
  complaint ascii_only (fun _ => []) policy
    (lit "Possible type error with attribute user.age. Attribute compared with different types. @ char 26 near ' user.age = ""x""'") /\
  l_evaluate ascii_only (Some (lit "10.0.0.1")) (fun _ => []) (fun _ _ => true) ex_db1 77 (PairObj (Has None) (Has (Some policy)) (Has None)) =
    ([LRec 40 (lit "ClientFault: Invalid policy in evaluate request from 10.0.0.1, error is Possible type error with attribute user.age. Attribute compared with different types. @ char 26 near ' user.age = ""x""'")],
     inr (Fault (lit "Invalid policy: Possible type error with attribute user.age. Attribute compared with different types. @ char 26 near ' user.age = ""x""'"))).
Proof.
  cbv zeta. split; [|vm_compute; reflexivity]. apply C116_policy; [exact ascii_only_ok| |vm_compute; reflexivity].
  intros a n p. apply C116_ascii; [exact ascii_only_ok|vm_compute; reflexivity].
Qed.
(** The empty policy is refused with the text of Python's IndexError; the good one passes to the session. *)
Example ex_evaluations : let run s := l_evaluate ascii_only (Some (lit "10.0.0.1")) (fun _ => lit "list index out of range") (fun _ _ => false) ex_db1 77 (PairObj (Has None) (Has (Some s)) (Has None)) in
  run [] = ([LRec 40 (lit "ClientFault: Invalid policy in evaluate request from 10.0.0.1, error is list index out of range")],
    inr (Fault (lit "Invalid policy: list index out of range"))) /\
  run (lit "user.a = 5") = ([LRec 40 (lit "ClientFault: Unknown session_id in evaluate request from 10.0.0.1")], inr (Fault (lit "Unknown session_id."))).
Proof. vm_compute. auto. Qed.
