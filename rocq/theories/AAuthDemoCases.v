(** * AAuthDemoCases: cases for the theorems about the graphical attribute authority client, and
    statements about it that do not hold *)

From Coq Require Import NArith ZArith List Bool String Lia.
From Verif Require Import PyBase LexSpec LexProofs LexCase Struct BytesProofs AttCert CertSpec CertProofs CertProofs2 CertProps CertProps2 CertProps3 Config ConfigProps Logging LoggingProps
  PAuth AAuth AAuthSpec AAuthProofs AAuthProps Clients ClientsProps AAuthDemo AAuthDemoProofs AAuthDemoProps AAuthDemoProps2.
Import ListNotations.
Open Scope Z_scope.

(** ** A client, a service and what it answers *)

Definition ex_bits (k : prv toy) : Z := 2048.
Definition ex_pair (k : prv toy) : str := [k + 32]%N.
(** datetime ends with the year 9999. *)
Definition ex_day (z : Z) : res str := if z <? 253402300800 then Ok (serial_hex z) else Err EOverflow.
Definition demo_client : client toy str :=
  match new_client ascii_only toy str ex_conn shipped_clients None with
  | COk c => c
  | CBad _ => Client toy str None None 0 None (Cred None None None) []
  end.
Definition demo_frame : dframe toy str := new_frame toy str demo_client 1024.
Definition demo_act : act toy str -> dframe toy str -> dframe toy str * outcome := do_act ascii_only toy ex_pem ex_bits str ex_pair ex_day.
Definition demo_use : list (act toy str) -> dframe toy str -> dframe toy str := use_demo ascii_only toy ex_pem ex_bits str ex_pair ex_day.
(** The authority of ClientsProps, a service sending the same bytes whatever it is asked, one that
    refuses and one whose attachment cannot be read. *)
Definition authority_net (c : str) (s : sent) : option (reply attachment) :=
  match ex_net c s with
  | Some (Reply st fa (Some i)) => Some (Reply st fa (Some (Ok (is_data i))))
  | Some (Reply st fa None) => Some (Reply st fa None)
  | None => None
  end.
Definition from_authority : call toy str := Call toy str (fun _ => Ok 8%N) authority_net.
Definition sends (b : bytes) : call toy str := Call toy str (fun _ => Ok 8%N) (fun _ _ => Some (Reply 200 None (Some (Ok b)))).
Definition refuses : call toy str := Call toy str (fun _ => Ok 8%N) (fun _ _ => Some (Reply 200 (Some (lit "refused")) None)).
Definition cannot_be_read (e : exc) : call toy str := Call toy str (fun _ => Ok 8%N) (fun _ _ => Some (Reply 200 None (Some (Err e)))).
Definition request (c : call toy str) : act toy str := PressRequest toy str ex_conn c [].
Definition alice : list (act toy str) := [TypeUser toy str (lit "Alice"); TypePass toy str (lit "secret")].
Lemma authority_net_is : is_authority ascii_only toy str ex_au ex_checkpw (fun l => l) authority_net.
Proof.
  intros c s r b H ST FA R. unfold authority_net in H. destruct (ex_net c s) as [[st fa [i|]]|] eqn:E; [| |discriminate]; injection H as <-; cbn [rp_status rp_fault rp_result] in *; [|discriminate].
  injection R as <-. destruct (ex_served c s _ i E ST FA eq_refl) as (q & dir & d & h & dir' & D & A). exists q, dir, d, h, dir', i. auto.
Qed.
(** Certificates signed by key 7, which is the authority, and by key 3. *)
Definition signed (c : cert) (k : N) : bytes := match snd (ac_encode toy c true (Some k) default_algo) with Ok b => b | Err _ => [] end.
Definition with_atts (c : cert) (l : list ac_att) : cert := Cert (c_issuer c) (c_holder c) (c_info c) (Some l) (c_rev c) (c_del c) (c_exts c) (c_sig c).
Definition with_issuer_key (c : cert) (b : bytes) : cert :=
  Cert (Issuer b (is_algo (c_issuer c)) (is_uid (c_issuer c)) (is_name (c_issuer c)) (is_url (c_issuer c))) (c_holder c) (c_info c) (c_atts c) (c_rev c) (c_del c) (c_exts c) (c_sig c).
Definition good : bytes := signed ex_cert 7.
(** The same with another signature, and one by someone who put their own key in it. *)
Definition forged : bytes := signed ex_cert 3.
Definition impostor : bytes := signed (with_issuer_key ex_cert [3]%N) 3.
Definition hold (f : dframe toy str) := option_map (fun c => (ho_key (c_holder c), ho_name (c_holder c), is_key (c_issuer c))) (d_ac toy str f).

(** ** C101 *)

(** Three attributes typed, one of them twice and one blank; the first one deleted. *)
Example ex_lists :
  let f := demo_use [TypeName toy str (lit "age"); PressAddName toy str; TypeName toy str (lit "role"); PressAddName toy str; TypeName toy str (lit "age"); PressAddName toy str;
                     TypeName toy str (lit "  "); PressAddName toy str; TypeId toy str (lit "/b/role"); PressAddId toy str; TypeName toy str (lit "x")] demo_frame in
  d_names toy str f = [lit "age"; lit "role"] /\ d_ids toy str f = [lit "/b/role"] /\ d_name toy str f = lit "x" /\
  d_names toy str (demo_use [PressDelName toy str (Some 0%nat)] f) = [lit "role"] /\ nth_error (d_names toy str f) 0 = Some (lit "age").
Proof. vm_compute. repeat split. Qed.
(** Spaces round a name are part of it, so that the same name can be in the list twice for a user
    who does not see them. *)
Theorem C101_distinct_refuted : exists l, let f := demo_use l demo_frame in
  exists a b, d_names toy str f = [a; b] /\ py_strip ascii_only a = py_strip ascii_only b.
Proof.
  exists [TypeName toy str (lit "age"); PressAddName toy str; TypeName toy str (lit "age "); PressAddName toy str]. cbv zeta.
  exists (lit "age"), (lit "age "). split; vm_compute; reflexivity.
Qed.
Print Assumptions C101_distinct_refuted.
(** A name that is typed but not added is not asked for. *)
Example ex_not_added : d_names toy str (demo_use [TypeName toy str (lit "age"); request from_authority] (demo_use alice demo_frame)) = [].
Proof. vm_compute. reflexivity. Qed.
(** A certificate asked for with the user's attributes, the key made on the way. *)
Example ex_received :
  let f := demo_use [TypeName toy str (lit "role"); PressAddName toy str] (demo_use alice demo_frame) in
  let f' := demo_use [request from_authority] f in
  snd (demo_act (request from_authority) f) = Returned /\ d_key toy str f = None /\ d_key toy str f' = Some 8%N /\ d_key_text toy str f' = [40]%N /\
  hold f' = Some ([9]%N, Some (lit "Alice"), [7]%N) /\ ex_pem 8%N = [9]%N /\
  option_map (fun c => option_map (fun l => firstn 1 (map at_id l)) (c_atts c)) (d_ac toy str f') = Some (Some [lit "/b/role"]).
Proof. vm_compute. repeat split. Qed.
Definition only_from (there : str) (net : str -> sent -> option (reply attachment)) : call toy str :=
  Call toy str (fun _ => Ok 8%N) (fun c s => if str_eqb c there then None else net c s).
Lemma only_agree : forall there net f, str_eqb (cl_conn toy str (d_client toy str f)) there = false -> cl_desc toy str (d_client toy str f) = Some (d_url toy str f) ->
  agree toy ex_pem ex_bits str ex_conn f (Call toy str (fun _ => Ok 8%N) net) (only_from there net).
Proof.
  intros there net f N D. split; [reflexivity|]. intros k s [[_ ->]|[H _]] _; [|congruence]. cbn [only_from ca_net]. now rewrite N.
Qed.
Example ex_agree : agree toy ex_pem ex_bits str ex_conn demo_frame from_authority (only_from (lit "http://other/") authority_net).
Proof. apply only_agree; vm_compute; reflexivity. Qed.

(** ** C102 *)

(** The key stays over requests and is made anew by the buttons. *)
Example ex_keys :
  map (fun l => d_key toy str (demo_use l (demo_use alice demo_frame)))
    [[]; [request from_authority]; [PressGenerate toy str (fun _ => Ok 5%N)]; [PressGenerate toy str (fun _ => Ok 5%N); request from_authority];
     [PressGenerate toy str (fun _ => Ok 5%N); request from_authority; PressGenerate toy str (fun _ => Ok 6%N)]; [request from_authority; PressReset toy str];
     [request from_authority; PressGenerate toy str (fun _ => Err EValue)]] =
  [None; Some 8%N; Some 5%N; Some 5%N; Some 6%N; None; Some 8%N].
Proof. vm_compute. reflexivity. Qed.
(** Typing another key does not change the key used: the certificate is for a key that is not the
    one in the window. *)
Theorem C102_text_refuted : exists l text c, let f := demo_use l demo_frame in
  d_key_text toy str f = text /\ d_ac toy str f = Some c /\ d_key toy str f = Some 5%N /\ ho_key (c_holder c) = ex_pem 5%N /\ text = ex_pair 6%N /\ text <> ex_pair 5%N.
Proof.
  exists (alice ++ [PressGenerate toy str (fun _ => Ok 5%N); request from_authority; TypeKey toy str (ex_pair 6%N)]), (ex_pair 6%N). eexists. cbv zeta.
  split; [vm_compute; reflexivity|]. split; [vm_compute; reflexivity|]. split; [vm_compute; reflexivity|]. split; [vm_compute; reflexivity|]. split; [reflexivity|vm_compute; discriminate].
Qed.
Print Assumptions C102_text_refuted.
(** After Generate Key or Reset the certificate in the window is no longer for the key held. *)
Theorem C102_pairing_refuted : exists l c, let f := demo_use l demo_frame in
  d_ac toy str f = Some c /\ d_key toy str f = Some 5%N /\ ho_key (c_holder c) <> ex_pem 5%N.
Proof.
  exists (alice ++ [request from_authority; PressGenerate toy str (fun _ => Ok 5%N)]). eexists. cbv zeta.
  split; [vm_compute; reflexivity|]. split; [vm_compute; reflexivity|vm_compute; discriminate].
Qed.
Print Assumptions C102_pairing_refuted.
(** The key made by the client when none is held has the size of the client and not that of the
    window. *)
Example ex_sizes : cl_size toy str (d_client toy str demo_frame) = 2048 /\ d_size toy str demo_frame = 1024.
Proof. vm_compute. repeat split. Qed.

(** ** C103 *)

Example ex_serial : map serial_hex [0; 10; 300; 1234567] = [lit "00"; lit "0A"; lit "12C"; lit "12D687"] /\ hexlify [0; 10; 255]%N = lit "000aff".
Proof. vm_compute. repeat split. Qed.
Definition shown_good : dframe toy str := demo_use [request (sends good)] demo_frame.
Example ex_tree :
  exists t, d_tree toy str shown_good = TreeShown t /\
  at_ "Information" "serial" t = [CellText (lit "12D687")] /\ at_ "Issuer" "name" t = [CellText (lit "Authority")] /\ at_ "Issuer" "url" t = [] /\
  map row_name (rows_below (lit "Attribute Set") t) = [lit "/attribute/user/age"; lit "/attribute/user/role"] /\
  at_ "Delegation Rules" "extra_bytes" t = [CellBytes [5]%N] /\ map row_name (rows_below (lit "Extensions") t) = [lit "e1"] /\
  List.length (at_ "Signature" "sig_value" t) = 1%nat.
Proof. eexists. split; [vm_compute; reflexivity|]. vm_compute. repeat split. Qed.
(** An algorithm without a signature leaves the tree unfinished; the certificate is then the one
    held. *)
Definition no_value : bytes := match encode_body ex_cert with Ok b => b ++ [3; 0; 0; 0; 82; 83; 65]%N | Err _ => [] end.
Example ex_no_value :
  snd (demo_act (request (sends no_value)) demo_frame) = Raised (DPy EType) /\ d_tree toy str (demo_use [request (sends no_value)] demo_frame) = TreeCut /\
  d_raw toy str (demo_use [request (sends no_value)] demo_frame) = Some no_value /\
  snd (demo_act (PressText toy str) (demo_use [request (sends no_value)] demo_frame)) = Raised (DPy EType).
Proof. vm_compute. repeat split. Qed.
Example ex_dates : forall z, 0 <= z < 2 ^ 32 -> exists x, ex_day z = Ok x.
Proof. intros z H. unfold ex_day. destruct (z <? 253402300800) eqn:E; [eauto|apply Z.ltb_ge in E; lia]. Qed.
(** Attributes with the value None and without a value look alike. *)
Definition one_att (v : option str) : cert :=
  Cert (c_issuer ex_cert) (c_holder ex_cert) (c_info ex_cert) (Some [Att (lit "a") AString v None None]) (c_rev ex_cert) (c_del ex_cert) (c_exts ex_cert)
    (Some (Sig (Some (lit "RSA")) (Some [7]%N))).
Definition unsigned (c : cert) : bytes := match snd (ac_encode toy c false None default_algo) with Ok b => b | Err _ => [] end.
Theorem C103_value_refuted : exists b b' c c' t, b <> b' /\ ac_decode toy b false = Ok c /\ ac_decode toy b' false = Ok c' /\
  option_map (map at_value) (c_atts c) = Some [Some (lit "None")] /\ option_map (map at_value) (c_atts c') = Some [None] /\
  build_tree ascii_only ex_day c = Ok t /\ build_tree ascii_only ex_day c' = Ok t.
Proof.
  exists (unsigned (one_att (Some (lit "None")))), (unsigned (one_att None)), (one_att (Some (lit "None"))), (one_att None). eexists.
  split; [vm_compute; discriminate|]. split; [vm_compute; reflexivity|]. split; [vm_compute; reflexivity|]. split; [reflexivity|]. split; [reflexivity|].
  split; [vm_compute; reflexivity|vm_compute; reflexivity].
Qed.
Print Assumptions C103_value_refuted.
(** After bytes that do not decode, View Bytes shows them while the tree, View Text and Verify
    are about the certificate before. *)
Theorem C103_same_refuted : exists l b, let f := demo_use l demo_frame in
  d_raw toy str f = Some b /\ d_cert_text toy str f = TextHex b /\ (exists e, ac_decode toy b false = Err e) /\
  (exists t, d_tree toy str f = TreeShown t) /\ d_verified toy str (demo_use [PressVerify toy str] f) = VerifiedTrue.
Proof.
  exists [request (sends good); request (sends [1; 2; 3]%N); PressBytes toy str], [1; 2; 3]%N. cbv zeta.
  split; [vm_compute; reflexivity|]. split; [vm_compute; reflexivity|]. split; [eexists; vm_compute; reflexivity|]. split; [eexists; vm_compute; reflexivity|vm_compute; reflexivity].
Qed.
Print Assumptions C103_same_refuted.
(** The button Clear of the certificate empties the box only: the certificate is still there. *)
Theorem C103_clear_refuted : exists l, let f := demo_use (l ++ [PressClearCert toy str]) demo_frame in
  d_cert_text toy str f = TextEmpty /\ d_verified toy str f = NotChecked /\ d_ac toy str f <> None /\ (exists t, d_tree toy str f = TreeShown t) /\
  d_cert_text toy str (demo_use [PressBytes toy str] f) = TextHex good.
Proof.
  exists [request (sends good); PressVerify toy str]. cbv zeta. cbn [app].
  split; [vm_compute; reflexivity|]. split; [vm_compute; reflexivity|]. split; [vm_compute; discriminate|]. split; [eexists; vm_compute; reflexivity|vm_compute; reflexivity].
Qed.
Print Assumptions C103_clear_refuted.
(** The other views. *)
Example ex_views :
  (exists n s, d_cert_text toy str (demo_use [PressText toy str] shown_good) = TextExport n s /\ 0 < n) /\
  (exists s, d_cert_text toy str (demo_use [PressBase64 toy str] shown_good) = TextBase64 s /\ ac_import toy (InStr s) FBase64Full false = ac_decode toy good false).
Proof.
  split; [eexists; eexists; split; [vm_compute; reflexivity|lia]|]. eexists. split; [vm_compute; reflexivity|vm_compute; reflexivity].
Qed.

(** ** C104 *)

Example ex_verified :
  map (fun l => d_verified toy str (demo_use l demo_frame))
    [[]; [PressVerify toy str]; [request (sends good)]; [request (sends good); PressVerify toy str]; [request (sends forged); PressVerify toy str];
     [request (sends good); PressVerify toy str; PressClearCert toy str]; [request (sends good); PressVerify toy str; PressReset toy str; PressClear toy str]] =
  [NotChecked; NotChecked; NotChecked; VerifiedTrue; VerifiedFalse; NotChecked; VerifiedTrue].
Proof. vm_compute. reflexivity. Qed.
(** A certificate that came later is shown beside the result for the one before it. *)
Theorem C104_current_refuted : exists l c, let f := demo_use l demo_frame in
  d_verified toy str f = VerifiedTrue /\ d_ac toy str f = Some c /\ (exists t, d_tree toy str f = TreeShown t) /\ verify_signature toy c = Ok false.
Proof.
  exists [request (sends good); PressVerify toy str; request (sends forged)]. eexists. cbv zeta.
  split; [vm_compute; reflexivity|]. split; [vm_compute; reflexivity|]. split; [eexists; vm_compute; reflexivity|vm_compute; reflexivity].
Qed.
Print Assumptions C104_current_refuted.
(** The key that verifies is the one in the certificate: anyone can sign one that verifies, under
    the authority's name. *)
Theorem C104_issuer_refuted : exists l c, let f := demo_use l demo_frame in
  d_verified toy str f = VerifiedTrue /\ d_ac toy str f = Some c /\ is_uid (c_issuer c) = is_uid (issuer_of toy ex_au) /\ is_name (c_issuer c) = is_name (issuer_of toy ex_au) /\
  is_key (c_issuer c) <> is_key (issuer_of toy ex_au).
Proof.
  exists [request (sends impostor); PressVerify toy str]. eexists. cbv zeta.
  split; [vm_compute; reflexivity|]. split; [vm_compute; reflexivity|]. split; [vm_compute; reflexivity|]. split; [vm_compute; reflexivity|vm_compute; discriminate].
Qed.
Print Assumptions C104_issuer_refuted.

(** ** C105 *)

Definition dial_all (d : option str) : option str := d.
Example ex_connected : connected toy str dial_all demo_frame /\ (forall s, dial_all (Some s) <> None) /\ connected toy str ex_conn demo_frame.
Proof. split; [vm_compute; repeat split|]. split; [discriminate|vm_compute; repeat split]. Qed.
(** With a service that cannot be reached: the first request fails, and so does not the second,
    which goes to the service before while the window shows the new URL. *)
Theorem C105_service_refuted : exists l c, let f := demo_use l demo_frame in
  d_url toy str f = lit "http://down/" /\ ex_conn (Some (d_url toy str f)) = None /\
  snd (demo_act (request from_authority) f) = Returned /\ d_ac toy str (fst (demo_act (request from_authority) f)) = Some c /\
  cl_conn toy str (d_client toy str f) = cl_conn toy str (d_client toy str demo_frame).
Proof.
  exists (alice ++ [TypeUrl toy str (lit "http://down/"); request from_authority]). eexists. cbv zeta.
  split; [vm_compute; reflexivity|]. split; [vm_compute; reflexivity|]. split; [vm_compute; reflexivity|]. split; [vm_compute; reflexivity|vm_compute; reflexivity].
Qed.
Print Assumptions C105_service_refuted.
(** How presses end. *)
Example ex_outcomes :
  map (fun a => snd (demo_act a demo_frame))
    [PressText toy str; PressBase64 toy str; PressVerify toy str; PressBytes toy str; PressDelName toy str None; PressGenerate toy str (fun _ => Err EValue);
     request refuses; request (sends []); request (sends no_value); request (cannot_be_read EType); request (cannot_be_read EValue);
     PressRequest toy str ex_conn (cannot_be_read EValue) [cannot_be_read EBinascii]; PressRequest toy str ex_conn (cannot_be_read EValue) [sends good];
     PressRequest toy str ex_conn (cannot_be_read EValue) [refuses]; PressRequest toy str (fun _ => None) (sends good) []] =
  [Raised (DPy EAttribute); Raised (DPy EAttribute); Raised (DPy EAttribute); Returned; Raised DTcl; Raised (DPy EValue);
   Returned; Raised (DPy EStruct); Raised (DPy EType); Raised (DPy EType); Running;
   Running; Returned; Raised (DClient (CFault (lit "refused"))); Returned] /\
  snd (demo_act (PressRequest toy str (fun _ => None) (sends good) []) (demo_use [TypeUrl toy str (lit "http://new/")] demo_frame)) = Raised (DClient CNet) /\
  d_response toy str (demo_use [request refuses] demo_frame) = RespError (CFault (lit "refused")).
Proof. vm_compute. repeat split. Qed.
(** A service whose attachment can never be read keeps the program asking: no number of further
    requests is enough. *)
Theorem C105_ends_refuted : forall n, snd (demo_act (PressRequest toy str ex_conn (cannot_be_read EValue) (repeat (cannot_be_read EValue) n)) demo_frame) = Running.
Proof.
  intros n. apply C105_stuck. exists (Client toy str (Some (lit "JSONWSP")) (cl_desc toy str demo_client) 2048 None (Cred None None None) (cl_conn toy str demo_client)).
  split; [|split; [vm_compute; reflexivity|]].
  - split; [vm_compute; reflexivity|]. split; [vm_compute; reflexivity|]. split; [left; split; vm_compute; reflexivity|vm_compute; reflexivity].
  - change (cannot_be_read EValue :: repeat (cannot_be_read EValue) n) with (repeat (cannot_be_read EValue) (Datatypes.S n)). apply Forall_forall. intros x X. apply repeat_spec in X. subst x.
    exists EValue, 8%N. split; [reflexivity|]. exists [9]%N, (Reply 200 None (Some (Err EValue))).
    split; [right; split; reflexivity|]. split; [reflexivity|]. split; [reflexivity|]. split; [reflexivity|]. split; reflexivity.
Qed.
Print Assumptions C105_ends_refuted.
(** An error of the first request is shown. *)
Example ex_refused : ~ no_service toy str ex_conn demo_frame /\ asks toy str ex_conn demo_frame demo_client /\ refused toy ex_pem ex_bits str demo_frame demo_client refuses.
Proof.
  split; [intros [H _]; apply H; vm_compute; reflexivity|]. split.
  - split; [vm_compute; reflexivity|]. split; [vm_compute; reflexivity|]. split; [left; split; vm_compute; reflexivity|vm_compute; reflexivity].
  - intros a k (t & r & _ & _ & N & _ & _ & R). cbn [refuses ca_net] in N. injection N as <-. discriminate R.
Qed.
