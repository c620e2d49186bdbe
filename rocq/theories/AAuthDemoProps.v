(** * AAuthDemoProps: theorems about the graphical attribute authority client (C101, C102) *)

From Coq Require Import NArith ZArith List Bool String Lia.
From Verif Require Import PyBase LexSpec LexProofs LexCase Struct BytesProofs AttCert CertSpec CertProofs CertProofs2 CertProps CertProps2 Config ConfigProps Logging LoggingProps
  PAuth AAuth AAuthSpec AAuthProofs AAuthProps Clients ClientsProps Tools ToolsProps2 AAuthDemo AAuthDemoProofs.
Import ListNotations.
Open Scope Z_scope.

Section Demo.
Variable U : unicode.
Variable K : crypto.
Variable pem : prv K -> bytes.
Variable bits : prv K -> Z.
Variable conn : Type.
Variable pair : prv K -> str.
Variable day : Z -> res str.
Notation dframe := (dframe K conn).
Notation act := (act K conn).
Notation call := (call K conn).
Notation do_act := (do_act U K pem bits conn pair day).
Notation use_demo := (use_demo U K pem bits conn pair day).
Notation key := (d_key K conn).
Notation names := (d_names K conn).
Notation ids := (d_ids K conn).
Notation raw := (d_raw K conn).
Notation ac := (d_ac K conn).

(** ** C101: what a request sends *)

(** A text with nothing but white space. *)
Definition blank (s : str) : Prop := Forall (fun c => isspace U c = true) s.
Definition clean (l : list str) : Prop := NoDup l /\ Forall (fun x => ~ blank x) l.

Lemma listed_iff : forall x l, listed x l = true <-> In x l.
Proof.
  intros x l. unfold listed. rewrite existsb_exists. split; [intros (y & I & E); apply str_eqb_eq in E; now subst|].
  intros I. exists x. split; [exact I|apply str_eqb_refl].
Qed.
Lemma add_cases : forall x l, (blank x \/ In x l) /\ add_to U x l = l \/ ~ blank x /\ ~ In x l /\ add_to U x l = l ++ [x].
Proof.
  intros x l. unfold add_to. destruct (str_eqb (py_strip U x) []) eqn:E; cbn [negb andb].
  - left. split; [|reflexivity]. left. apply str_eqb_eq in E. now apply strip_blank.
  - destruct (listed x l) eqn:L; cbn [negb]; [left; split; [right; now apply listed_iff|reflexivity]|]. right. split; [|split; [|reflexivity]].
    + intros B. apply strip_blank in B. rewrite B in E. discriminate.
    + intros I. apply listed_iff in I. congruence.
Qed.
Lemma drop_nth_eq : forall A i (l : list A), drop_nth i l = firstn i l ++ skipn (S i) l.
Proof. intros A. induction i as [|i IH]; intros [|x l]; try reflexivity. cbn [drop_nth firstn app]. rewrite IH. reflexivity. Qed.
Lemma drop_incl : forall A i (l : list A) x, In x (drop_nth i l) -> In x l.
Proof. intros A. induction i as [|i IH]; intros [|y l] x; cbn [drop_nth]; [tauto|now right|tauto|]. intros [->|I]; [now left|right; eauto]. Qed.
Lemma drop_clean : forall i l, clean l -> clean (drop_nth i l).
Proof.
  intros i l [N F]. split.
  - clear F. revert i. induction N as [|x l X N IH]; intros [|i]; cbn [drop_nth]; [constructor|constructor|exact N|].
    constructor; [intros I; apply X; exact (drop_incl _ _ _ _ I)|apply IH].
  - apply Forall_forall. intros x I. rewrite Forall_forall in F. apply F. exact (drop_incl _ _ _ _ I).
Qed.
Lemma add_clean : forall x l, clean l -> clean (add_to U x l).
Proof.
  intros x l [N F]. destruct (add_cases x l) as [[_ ->]|(B & I & ->)]; [split; auto|]. split.
  - clear F B. induction N as [|y l X N IH]; cbn [app]; [constructor; [tauto|constructor]|]. constructor.
    + intros J. apply in_app_or in J as [J|[->|[]]]; [tauto|]. apply I. now left.
    + apply IH. intros J. apply I. now right.
  - apply Forall_app. split; [exact F|]. constructor; auto.
Qed.

(** The lists change only by their own buttons and Reset. *)
Lemma request_fields : forall connect first more f,
  let f' := fst (command_ac U K pem bits conn pair day connect first more f) in
  names f' = names f /\ ids f' = ids f /\ d_name K conn f' = d_name K conn f /\ d_id K conn f' = d_id K conn f /\
  d_url K conn f' = d_url K conn f /\ d_user K conn f' = d_user K conn f /\ d_pass K conn f' = d_pass K conn f /\
  d_size K conn f' = d_size K conn f /\ d_home K conn f' = d_home K conn f /\ d_verified K conn f' = d_verified K conn f.
Proof.
  intros connect first more f. cbv zeta.
  destruct (request_spec U K pem bits conn pair day connect first more f) as [(cl & e & E & _)|(c0 & cl & _ & _ & _ & [(e & E)|[(o & _ & E)|(b & x & k & _ & _ & L & E)]])];
    rewrite E; cbn [fst]; try (cbn; auto 15; fail).
  rewrite (receive_spec U K conn pair day b (with_client K conn f cl) k L).
  destruct (ac_decode K b false) as [c|e]; [|cbn; auto 15]. cbv zeta. destruct (build_tree U day c); cbn; auto 15.
Qed.
Lemma view_fields : forall fmt show f, fmt = FText \/ fmt = FBase64Full -> exists t, fst (view_as K conn fmt show f) = with_text K conn f t.
Proof.
  intros fmt show f F. rewrite (view_spec K conn fmt show f F). assert (G : f = with_text K conn f (d_cert_text K conn f)) by (now destruct f).
  destruct (ac f) as [c|]; [|eexists; exact G].
  destruct (snd (ac_export K c fmt false None default_algo)) as [[b|s]|e]; [eexists; exact G|eexists; reflexivity|eexists; exact G].
Qed.
Lemma follow_fields : forall connect f, exists c, fst (follow_url K conn connect f) = with_client K conn f c.
Proof.
  intros connect f. destruct (follow_url K conn connect f) as [f' r] eqn:E. apply follow_spec in E as (c & -> & _). now exists c.
Qed.
Lemma info_fields : forall connect net f, exists c r, fst (command_info K conn connect net f) = with_response K conn (with_client K conn f c) r.
Proof.
  intros connect net f. unfold command_info. destruct (follow_fields connect f) as [c E]. destruct (follow_url K conn connect f) as [f' r]. cbn [fst] in E. subst f'.
  destruct r as [[]|e]; [eexists; eexists; reflexivity|]. exists c, (d_response K conn f). reflexivity.
Qed.
Lemma verify_fields : forall f, exists v, fst (command_verify K conn f) = with_label K conn f v.
Proof.
  intros f. unfold command_verify. assert (G : f = with_label K conn f (d_verified K conn f)) by (now destruct f).
  destruct (ac f) as [c|]; [|eexists; exact G]. destruct (verify_signature K c); [eexists; reflexivity|eexists; exact G].
Qed.
Lemma generate_fields : forall g f, exists k t, fst (command_generate K conn pair g f) = with_key K conn f k t.
Proof.
  intros g f. unfold command_generate. destruct (g (d_size K conn f)); [eexists; eexists; reflexivity|]. exists (key f), (d_key_text K conn f). now destruct f.
Qed.

(** At all times, no attribute is listed twice and none is blank. *)
Theorem C101_lists : forall l c size, let f := use_demo l (new_frame K conn c size) in clean (names f) /\ clean (ids f).
Proof.
  intros l c size. cbv zeta. apply (use_all U K pem bits conn pair day (fun f => clean (names f) /\ clean (ids f))).
  2:{ cbn. split; (split; constructor). }
  intros a f [N I]. destruct a as [s|s|s|s|s|s|g| | |sel|sel|connect net|connect first more| | | | | | | ]; cbn [AAuthDemo.do_act]; try (exact (conj N I)).
  - destruct (generate_fields g f) as (k & t & ->). exact (conj N I).
  - split; [exact (add_clean _ _ N)|exact I].
  - split; [exact N|exact (add_clean _ _ I)].
  - destruct sel as [i|]; [split; [exact (drop_clean i _ N)|exact I]|exact (conj N I)].
  - destruct sel as [i|]; [split; [exact N|exact (drop_clean i _ I)]|exact (conj N I)].
  - destruct (info_fields connect net f) as (k & r & ->). exact (conj N I).
  - destruct (request_fields connect first more f) as (-> & -> & _). exact (conj N I).
  - cbn. split; (split; constructor).
  - unfold command_view_bytes. destruct (raw f); exact (conj N I).
  - destruct (view_fields FText (fun s => TextExport (Z.of_nat (List.length s)) s) f (or_introl eq_refl)) as (t & E). unfold command_view_text. rewrite E. exact (conj N I).
  - destruct (view_fields FBase64Full TextBase64 f (or_intror eq_refl)) as (t & E). unfold command_view_base64. rewrite E. exact (conj N I).
  - destruct (verify_fields f) as (v & E). rewrite E. exact (conj N I).
Qed.
(** Typing a text and pressing Add puts it at the end of the list unless it is blank or listed;
    the other list stays, and the entry is empty. *)
Theorem C101_add : forall f x,
  (let f' := use_demo [TypeName K conn x; PressAddName K conn] f in
   (In x (names f') <-> In x (names f) \/ ~ blank x) /\ (names f' = names f \/ names f' = names f ++ [x]) /\ ids f' = ids f /\ d_name K conn f' = []) /\
  (let f' := use_demo [TypeId K conn x; PressAddId K conn] f in
   (In x (ids f') <-> In x (ids f) \/ ~ blank x) /\ (ids f' = ids f \/ ids f' = ids f ++ [x]) /\ names f' = names f /\ d_id K conn f' = []).
Proof.
  assert (G : forall x l, (In x (add_to U x l) <-> In x l \/ ~ blank x) /\ (add_to U x l = l \/ add_to U x l = l ++ [x])).
  { intros x l. destruct (add_cases x l) as [[H ->]|(B & I & ->)].
    - split; [|now left]. split; [now left|]. intros [I|N]; [exact I|]. destruct H; tauto.
    - split; [|now right]. split; [now right|]. intros _. apply in_or_app. right. now left. }
  intros f x. split; cbv zeta; cbn.
  - destruct (G x (names f)) as [A B]. auto.
  - destruct (G x (ids f)) as [A B]. auto.
Qed.
(** Delete takes out the selected row and leaves the others in order. *)
Theorem C101_delete : forall f i x,
  (nth_error (names f) i = Some x -> exists a b, names f = a ++ x :: b /\ List.length a = i /\
     names (use_demo [PressDelName K conn (Some i)] f) = a ++ b /\ ids (use_demo [PressDelName K conn (Some i)] f) = ids f) /\
  (nth_error (ids f) i = Some x -> exists a b, ids f = a ++ x :: b /\ List.length a = i /\
     ids (use_demo [PressDelId K conn (Some i)] f) = a ++ b /\ names (use_demo [PressDelId K conn (Some i)] f) = names f).
Proof.
  assert (G : forall (x : str) l i, nth_error l i = Some x -> exists a b, l = a ++ x :: b /\ List.length a = i /\ drop_nth i l = a ++ b).
  { intros x l i H. apply nth_error_split in H as (a & b & -> & L). exists a, b. split; [reflexivity|]. split; [exact L|]. subst i.
    induction a as [|y a IH]; [reflexivity|]. cbn [app drop_nth List.length]. now rewrite IH. }
  intros f i x. split; intros H; apply G in H as (a & b & E & L & D); exists a, b; (split; [exact E|]); (split; [exact L|]); cbn; auto.
Qed.

(** What the window says to send: the user and password shown, the attributes listed in order,
    and the public part of the key held; without a key, of one generated in the size configured. *)
Definition window_says (f : dframe) (s : sent) : Prop :=
  cd_user (sn_cred s) = Some (d_user K conn f) /\ cd_pass (sn_cred s) = Some (d_pass K conn f) /\ cd_type (sn_cred s) = Some (lit "0") /\
  sn_names s = Some (map Some (names f)) /\ sn_ids s = Some (map Some (ids f)) /\ sn_cipher s = lit "RSA" /\
  match key f with
  | Some k => utf8_encode (sn_key s) = Ok (pem k) /\ sn_size s = bits k
  | None => sn_size s = cl_size K conn (d_client K conn f)
  end.
(** The service the window says to ask: unchanged for the URL of the client, else a new one. *)
Definition asked (connect : option str -> option conn) (f : dframe) (k : conn) : Prop :=
  cl_desc K conn (d_client K conn f) = Some (d_url K conn f) /\ k = cl_conn K conn (d_client K conn f) \/
  cl_desc K conn (d_client K conn f) <> Some (d_url K conn f) /\ connect (Some (d_url K conn f)) = Some k.
(** Two behaviours of the world that agree on these messages to this service. *)
Definition agree (connect : option str -> option conn) (f : dframe) (x y : call) : Prop :=
  (forall n, ca_generate K conn x n = ca_generate K conn y n) /\
  (forall k s, asked connect f k -> window_says f s -> ca_net K conn x k s = ca_net K conn y k s).

Lemma issue_agree : forall connect f c x y, agree connect f x y -> asked connect f (cl_conn K conn c) ->
  cl_cred K conn c = login K conn f -> cl_size K conn c = cl_size K conn (d_client K conn f) ->
  issue K pem bits conn (with_client K conn f c) x = issue K pem bits conn (with_client K conn f c) y.
Proof.
  intros connect f c x y [A1 A2] Q C S. unfold issue. cbn [with_client d_names d_ids d_key d_client]. f_equal.
  unfold client_request. rewrite A1. destruct (match key f with None => ca_generate K conn y (cl_size K conn c) | Some k => Ok k end) as [k|e] eqn:G; [|reflexivity].
  destruct (utf8_decode (pem k)) as [t|e] eqn:D; [|reflexivity]. rewrite A2; [reflexivity|exact Q|].
  unfold window_says. cbn [sn_cred sn_names sn_ids sn_cipher sn_key sn_size]. rewrite C. unfold login. cbn [cd_type cd_user cd_pass].
  repeat (split; [reflexivity|]). destruct (key f) as [k'|]; [|exact S]. apply Ok_inj in G. subst k'. split; [now apply decode_iff|reflexivity].
Qed.
Lemma loop_agree : forall connect f xs ys, Forall2 (agree connect f) xs ys -> forall got c, asked connect f (cl_conn K conn c) ->
  cl_cred K conn c = login K conn f -> cl_size K conn c = cl_size K conn (d_client K conn f) ->
  read_loop K pem bits conn got xs (with_client K conn f c) = read_loop K pem bits conn got ys (with_client K conn f c).
Proof.
  intros connect f xs ys H. induction H as [|x y xs ys A H IH]; intros got c Q C S; destruct got as [b|e]; cbn [read_loop]; try reflexivity.
  destruct (is_value_error e); [|reflexivity]. rewrite (issue_agree connect f c x y A Q C S).
  destruct (issue K pem bits conn (with_client K conn f c) y) as [f1 r] eqn:I.
  destruct (issue_spec K pem bits conn (with_client K conn f c) y f1 r C I) as (c1 & -> & (L1 & L2 & L3 & L4 & L5) & _). cbn [with_client d_client] in *.
  destruct r as [got|e']; [|reflexivity]. change (with_client K conn (with_client K conn f c) c1) with (with_client K conn f c1).
  apply IH; [now rewrite L5|congruence|congruence].
Qed.
(** A request depends on nothing but what the service asked does with these messages: nothing
    else is sent anywhere. *)
Theorem C101_sent : forall connect x xs y ys f, agree connect f x y -> Forall2 (agree connect f) xs ys ->
  do_act (PressRequest K conn connect x xs) f = do_act (PressRequest K conn connect y ys) f.
Proof.
  intros connect x xs y ys f A H. cbn [AAuthDemo.do_act]. unfold command_ac. destruct (follow_url K conn connect f) as [f1 r1] eqn:FU.
  destruct (follow_spec K conn connect f f1 r1 FU) as (c1 & -> & D1 & T1 & S1 & L1 & CR1 & W). destruct r1 as [[]|e]; [|reflexivity].
  change (with_client K conn (with_client K conn f c1) (as_client K conn (with_client K conn f c1))) with (with_client K conn f (as_client K conn (with_client K conn f c1))).
  remember (as_client K conn (with_client K conn f c1)) as c0 eqn:E0.
  assert (Q : asked connect f (cl_conn K conn c0)).
  { subst c0. cbn. destruct W as [(W1 & _ & ->)|[(W1 & _ & _ & W2)|(_ & [e W] & _)]]; [left; auto|right; auto|discriminate]. }
  assert (C : cl_cred K conn c0 = login K conn f) by (subst c0; reflexivity).
  assert (S : cl_size K conn c0 = cl_size K conn (d_client K conn f)) by (subst c0; exact S1).
  rewrite (issue_agree connect f c0 x y A Q C S). destruct (issue K pem bits conn (with_client K conn f c0) y) as [f2 r2] eqn:I.
  destruct (issue_spec K pem bits conn (with_client K conn f c0) y f2 r2 C I) as (c2 & -> & (K1 & K2 & K3 & K4 & K5) & _). cbn [with_client d_client] in *.
  destruct r2 as [got|e]; [|reflexivity]. change (with_client K conn (with_client K conn f c0) c2) with (with_client K conn f c2).
  rewrite (loop_agree connect f xs ys H got c2); [reflexivity|now rewrite K5|congruence|congruence].
Qed.

(** A request either leaves key, certificate and everything about it as they were, or stores
    the bytes that the service asked gave for such a message, with the key of that message. *)
Theorem C101_received : forall connect first more f,
  let f' := fst (do_act (PressRequest K conn connect first more) f) in
  (key f' = key f /\ d_key_text K conn f' = d_key_text K conn f /\ raw f' = raw f /\ ac f' = ac f /\
   d_tree K conn f' = d_tree K conn f /\ d_cert_text K conn f' = d_cert_text K conn f) \/
  exists x k s r b p, In x (first :: more) /\ asked connect f k /\ window_says f s /\ ca_net K conn x k s = Some r /\
    rp_status r = 200 /\ rp_fault r = None /\ rp_result r = Some (Ok b) /\ raw f' = Some b /\
    utf8_encode (sn_key s) = Ok (pem p) /\ key f' = Some p /\ d_key_text K conn f' = pair p /\ cl_last K conn (d_client K conn f') = Some p /\
    (key f = Some p \/ key f = None /\ ca_generate K conn x (cl_size K conn (d_client K conn f)) = Ok p).
Proof.
  intros connect first more f. cbv zeta. cbn [AAuthDemo.do_act].
  destruct (request_spec U K pem bits conn pair day connect first more f) as [(cl & e & E & _)|(c0 & cl & A & L & _ & [(e & E)|[(o & _ & E)|(b & x & k & I & AN & LL & E)]])];
    rewrite E; cbn [fst]; try (left; cbn; auto 10; fail).
  right. destruct AN as (text & r & KO & T & N & ST & FA & RR). destruct A as (A1 & A2 & A3 & _).
  exists x, (cl_conn K conn c0), (message K bits conn f k text (cl_size K conn c0)), r, b, k. split; [exact I|].
  split; [unfold asked; destruct A3 as [[S A3]|[S A3]]; [left; split; [exact S|exact A3]|right; split; [exact S|exact A3]]|].
  unfold key_of in KO. rewrite A2 in KO.
  split.
  { unfold window_says, message, login. cbn [sn_cred sn_names sn_ids sn_cipher sn_key sn_size cd_user cd_pass cd_type]. repeat (split; [reflexivity|]).
    destruct KO as [KO|[KO _]]; rewrite KO; [split; [exact T|reflexivity]|exact A2]. }
  split; [exact N|]. split; [exact ST|]. split; [exact FA|]. split; [exact RR|].
  rewrite (receive_spec U K conn pair day b (with_client K conn f cl) k LL).
  assert (G : forall f', fst (match ac_decode K b false with
      | Err e => (with_cert K conn (with_key K conn (with_client K conn f cl) (Some k) (pair k)) (Some b) (ac f) (d_tree K conn f), Raised (DPy e))
      | Ok c =>
          let g := with_text K conn (with_response K conn (with_key K conn (with_client K conn f cl) (Some k) (pair k)) (RespBytes b)) (TextHex b) in
          match build_tree U day c with
          | Ok rows => (with_cert K conn g (Some b) (Some c) (TreeShown rows), Returned)
          | Err e => (with_cert K conn g (Some b) (Some c) TreeCut, Raised (DPy e))
          end
      end) = f' -> raw f' = Some b /\ utf8_encode text = Ok (pem k) /\ key f' = Some k /\ d_key_text K conn f' = pair k /\ cl_last K conn (d_client K conn f') = Some k).
  { intros f' <-. destruct (ac_decode K b false) as [c|e]; [|cbn; auto]. cbv zeta. destruct (build_tree U day c); cbn; auto. }
  destruct (G _ eq_refl) as (G1 & G2 & G3 & G4 & G5). cbn [message sn_key]. split; [exact G1|]. split; [exact G2|]. split; [exact G3|]. split; [exact G4|]. split; [exact G5|exact KO].
Qed.

(** ** C102: the session key *)

Definition renews (a : act) : Prop := match a with PressGenerate _ _ _ | PressReset _ _ => True | _ => False end.
Lemma key_step : forall a f, ~ renews a -> key f <> None -> key (fst (do_act a f)) = key f.
Proof.
  intros a f N S. destruct a as [s|s|s|s|s|s|g| | |sel|sel|connect net|connect first more| | | | | | | ]; try (destruct N; exact I); try reflexivity.
  - cbn [AAuthDemo.do_act]. destruct sel; reflexivity.
  - cbn [AAuthDemo.do_act]. destruct sel; reflexivity.
  - cbn [AAuthDemo.do_act]. destruct (info_fields connect net f) as (k & r & ->). reflexivity.
  - destruct (C101_received connect first more f) as [(-> & _)|(x & k & s & r & b & p & _ & _ & _ & _ & _ & _ & _ & _ & _ & -> & _ & _ & [Q|[Q _]])]; congruence.
  - cbn [AAuthDemo.do_act]. unfold command_view_bytes. destruct (raw f); reflexivity.
  - cbn [AAuthDemo.do_act]. unfold command_view_text. destruct (view_fields FText (fun s => TextExport (Z.of_nat (List.length s)) s) f (or_introl eq_refl)) as (t & ->). reflexivity.
  - cbn [AAuthDemo.do_act]. unfold command_view_base64. destruct (view_fields FBase64Full TextBase64 f (or_intror eq_refl)) as (t & ->). reflexivity.
  - cbn [AAuthDemo.do_act]. destruct (verify_fields f) as (v & ->). reflexivity.
Qed.
(** A key once there stays until Generate Key Pair or Reset is pressed, whatever else the user
    does and the services answer. *)
Theorem C102_kept : forall l f k, key f = Some k -> Forall (fun a => ~ renews a) l -> key (use_demo l f) = Some k.
Proof.
  intros l f k E F. apply (use_ind U K pem bits conn pair day (fun f => key f = Some k) (fun a => ~ renews a)); [|exact F|exact E].
  intros a g N G. rewrite key_step; [exact G|exact N|congruence].
Qed.
(** Generate Key Pair replaces it by what RSA.generate returns for the size configured, or
    leaves it; Reset drops it, and then the next request answered brings a new one. *)
Theorem C102_renewed : forall f,
  (forall g, key (use_demo [PressGenerate K conn g] f) = match g (d_size K conn f) with Ok k => Some k | Err _ => key f end) /\
  key (use_demo [PressReset K conn] f) = None /\
  (forall connect first more, key f = None -> forall k, key (fst (do_act (PressRequest K conn connect first more) f)) = Some k ->
     exists x, In x (first :: more) /\ ca_generate K conn x (cl_size K conn (d_client K conn f)) = Ok k).
Proof.
  intros f. split; [|split; [reflexivity|]].
  - intros g. cbn. unfold command_generate. destruct (g (d_size K conn f)); reflexivity.
  - intros connect first more N k H. destruct (C101_received connect first more f) as [(E & _)|(x & k' & s & r & b & p & I & _ & _ & _ & _ & _ & _ & _ & _ & E & _ & _ & [Q|[_ Q]])]; [congruence|congruence|].
    exists x. split; [exact I|]. congruence.
Qed.
(** As long as nobody types into its box, the box shows the key held, or nothing. *)
Theorem C102_shown : forall l c size, Forall (fun a => match a with TypeKey _ _ _ => False | _ => True end) l ->
  let f := use_demo l (new_frame K conn c size) in d_key_text K conn f = match key f with Some k => pair k | None => [] end.
Proof.
  intros l c size F. cbv zeta.
  apply (use_ind U K pem bits conn pair day (fun f => d_key_text K conn f = match key f with Some k => pair k | None => [] end) (fun a => match a with TypeKey _ _ _ => False | _ => True end)); [|exact F|reflexivity].
  clear l c size F. intros a f N S. destruct a as [s|s|s|s|s|s|g| | |sel|sel|connect net|connect first more| | | | | | | ]; try exact S; try (destruct N; fail).
  - cbn [AAuthDemo.do_act]. unfold command_generate. destruct (g (d_size K conn f)); [reflexivity|exact S].
  - cbn [AAuthDemo.do_act]. destruct sel; exact S.
  - cbn [AAuthDemo.do_act]. destruct sel; exact S.
  - cbn [AAuthDemo.do_act]. destruct (info_fields connect net f) as (k & r & ->). exact S.
  - destruct (C101_received connect first more f) as [(-> & -> & _)|(x & k & s & r & b & p & _ & _ & _ & _ & _ & _ & _ & _ & _ & -> & -> & _)]; [exact S|reflexivity].
  - reflexivity.
  - cbn [AAuthDemo.do_act]. unfold command_view_bytes. destruct (raw f); exact S.
  - cbn [AAuthDemo.do_act]. unfold command_view_text. destruct (view_fields FText (fun s => TextExport (Z.of_nat (List.length s)) s) f (or_introl eq_refl)) as (t & ->). exact S.
  - cbn [AAuthDemo.do_act]. unfold command_view_base64. destruct (view_fields FBase64Full TextBase64 f (or_intror eq_refl)) as (t & ->). exact S.
  - cbn [AAuthDemo.do_act]. destruct (verify_fields f) as (v & ->). exact S.
Qed.

(** A service that hands the message to the attribute authority and its certificate back. *)
Variable au : authority K.
Variable checkpw : bytes -> bytes -> res bool.
Variable order : list valued -> list valued.
Definition is_authority (net : conn -> sent -> option (reply attachment)) : Prop :=
  forall c s r b, net c s = Some r -> rp_status r = 200 -> rp_fault r = None -> rp_result r = Some (Ok b) ->
    exists q dir d h dir' i, delivered s q /\ attribute_request K U au checkpw order dir d q h = (dir', Ok i) /\ b = is_data i.

(** The certificate then shown is for the key then shown: a certificate that arrived names as
    its holder the public part of the key held. *)
Theorem C102_holder : forall connect first more f,
  (forall x, In x (first :: more) -> is_authority (ca_net K conn x)) ->
  let f' := fst (do_act (PressRequest K conn connect first more) f) in
  snd (do_act (PressRequest K conn connect first more) f) = Returned ->
  (exists e, d_response K conn f' = RespError e /\ key f' = key f /\ ac f' = ac f /\ raw f' = raw f) \/
  exists k c, key f' = Some k /\ d_key_text K conn f' = pair k /\ ac f' = Some c /\ ho_key (c_holder c) = pem k /\
    is_key (c_issuer c) = is_key (issuer_of K au) /\ (exists b, raw f' = Some b /\ ac_decode K b false = Ok c).
Proof.
  intros connect first more f NA. cbv zeta. cbn [AAuthDemo.do_act].
  destruct (request_spec U K pem bits conn pair day connect first more f) as [(cl & e & E & _)|(c0 & cl & A & L & _ & [(e & E)|[(o & O & E)|(b & x & k & I & AN & LL & E)]])];
    rewrite E; cbn [fst snd]; [discriminate|intros _; left; exists e; cbn; auto|congruence|].
  rewrite (receive_spec U K conn pair day b (with_client K conn f cl) k LL). destruct (ac_decode K b false) as [c|e] eqn:D; [|discriminate].
  cbv zeta. destruct (build_tree U day c) as [rows|e] eqn:B; [|discriminate]. intros _. right. exists k, c. cbn [fst with_cert with_text with_response with_key with_client d_key d_key_text d_ac d_raw].
  split; [reflexivity|]. split; [reflexivity|]. split; [reflexivity|].
  destruct AN as (text & r & KO & T & N & ST & FA & RR).
  destruct (NA x I _ _ _ _ N ST FA RR) as (q & dir & d & h & dir' & i & (D1 & D2 & D3 & D4 & D5 & D6 & D7) & AR & EB).
  apply answer_inv in AR as [AR _]. apply request_inv in AR as (addr & user & name & is & ns & sel & ct & c2 & b2 & _ & _ & _ & _ & _ & C & X & ->).
  apply cert_inv in C as (cons & us & C1 & C2 & ->). cbn [is_data] in EB. subst b2.
  cbn [message sn_key] in D3. rewrite T in D3. apply Ok_inj in D3.
  apply sign_export in X as (w & sg & BW & _ & -> & X); [|discriminate].
  unfold ac_export, ac_encode in X.
  match type of BW with encode_body ?c = _ => set (cc := c) in * end.
  assert (BW' : encode_body (with_sig cc (Some (Sig (Some (lit "RSASSA-PKCS1-v1_5:SHA256")) (Some sg)))) = Ok w) by exact BW.
  rewrite BW' in X. cbn [with_sig c_sig] in X. destruct (sig_encode _) as [sb|] eqn:SE; cbn [bind] in X; [|discriminate]. injection X as X. subst b.
  pose proof D as DD. unfold ac_decode in D. rewrite (body_app cc w sb BW) in D. destruct (body_recv cc) as [rc|] eqn:RC; cbn [bind] in D; [|discriminate].
  destruct (sig_decode sb) as [[s' t']|]; cbn [bind] in D; [|discriminate]. destruct t'; [|discriminate]. apply Ok_inj in D.
  assert (HH : ho_key (c_holder rc) = rq_key q /\ is_key (c_issuer rc) = is_key (issuer_of K au)).
  { unfold body_recv in RC. subst cc. cbn [c_issuer c_holder] in RC.
    destruct (issuer_recv (issuer_of K au)) as [ri|] eqn:RI; cbn [bind] in RC; [|discriminate].
    destruct (holder_recv _) as [rh|] eqn:RH; cbn [bind] in RC; [|discriminate].
    destruct (mapM att_recv _) as [ra|]; cbn [bind] in RC; [|discriminate]. destruct (rev_recv _) as [rr|]; cbn [bind] in RC; [|discriminate].
    destruct (mapM ext_recv _) as [re|]; cbn [bind] in RC; [|discriminate]. apply Ok_inj in RC. subst rc. cbn [c_holder c_issuer]. split.
    - unfold holder_recv in RH. cbn [ho_key ho_algo ho_uid ho_name] in RH. destruct (recv_text _) as [t1|]; cbn [bind] in RH; [|discriminate].
      destruct (recv_text _) as [t2|]; cbn [bind] in RH; [|discriminate]. destruct (recv_opt _) as [t3|]; cbn [bind] in RH; [|discriminate]. apply Ok_inj in RH. subst rh. reflexivity.
    - unfold issuer_recv in RI. destruct (recv_text _) as [t1|]; cbn [bind] in RI; [|discriminate].
      destruct (recv_text _) as [t2|]; cbn [bind] in RI; [|discriminate]. destruct (recv_opt _) as [t3|]; cbn [bind] in RI; [|discriminate].
      destruct (recv_opt _) as [t4|]; cbn [bind] in RI; [|discriminate]. apply Ok_inj in RI. subst ri. reflexivity. }
  destruct HH as [H1 H2]. split; [|split].
  - rewrite <- D. cbn [with_sig c_holder]. now rewrite H1.
  - rewrite <- D. cbn [with_sig c_issuer]. exact H2.
  - exists (w ++ sb). split; [reflexivity|exact DD].
Qed.
End Demo.
Print Assumptions C101_lists.
Print Assumptions C101_add.
Print Assumptions C101_delete.
Print Assumptions C101_sent.
Print Assumptions C101_received.
Print Assumptions C102_kept.
Print Assumptions C102_renewed.
Print Assumptions C102_shown.
Print Assumptions C102_holder.
