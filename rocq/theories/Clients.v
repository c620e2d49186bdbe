(** * Clients: model of hgaa/clients/aauth.py and hgaa/clients/pauth.py

    JSONWSPClient of ladon is an argument: opening the description of a service gives a
    connection or raises, and a call on a connection gives a response (status and dictionary)
    or raises.  RSA.generate is an argument too.  Logging is not modelled. *)

From Coq Require Import NArith ZArith List Bool String.
From Verif Require Import PyBase Struct AttCert Config PAuth AAuth.
Import ListNotations.
Open Scope Z_scope.

(** Exceptions: of the client (unsupported type, status, fault), of the configuration, of
    ladon, and others of Python. *)
Inductive client_err : Type := CType | CStatus | CFault (text : str) | CConf (e : conf_err) | CNet | CPy (e : exc).
Inductive cres (A : Type) : Type := COk (a : A) | CBad (e : client_err).
Arguments COk {A}. Arguments CBad {A}.

(** response.status, and the entries 'fault' and 'result' of response.response_dict. *)
Record reply (V : Type) : Type := Reply { rp_status : Z; rp_fault : option str; rp_result : option V }.
Arguments Reply {V}. Arguments rp_status {V}. Arguments rp_fault {V}. Arguments rp_result {V}.

(** The dictionary of credentials, and the arguments of a call (72-88). *)
Record credentials : Type := Cred { cd_type : option str; cd_user : option str; cd_pass : option str }.
Record sent : Type := Sent {
  sn_cred : credentials; sn_key : str; sn_cipher : str; sn_size : Z;
  sn_names : option (list (option str)); sn_ids : option (list (option str)) }.

Section WithNet.
Variable U : unicode.
Variable K : crypto.
Variable pem : prv K -> bytes.
Variable bits : prv K -> Z.
Variable conn : Type.
Variable connect : option str -> option conn.
Variable generate : Z -> res (prv K).

Record client : Type := Client {
  cl_type : option str; cl_desc : option str; cl_size : Z; cl_last : option (prv K); cl_cred : credentials; cl_conn : conn }.

Definition cconf (F : conf_file) (name sect : str) : cres (option str) :=
  match get_conf U F client_defaults name sect with CVal v => COk v | CErr e => CBad (CConf e) end.
Definition cbind {A B} (x : cres A) (f : A -> cres B) : cres B := match x with COk a => f a | CBad e => CBad e end.
Definition jsonwsp (ty : option str) : bool := match ty with Some t => str_eqb t (lit "JSONWSP") | None => false end.
Definition open_service (ty desc : option str) : cres conn :=
  if jsonwsp ty then match connect desc with Some c => COk c | None => CBad CNet end else CBad CType.

(** hgaa/clients/aauth.py 13-32; int(None) raises TypeError. *)
Definition new_client (F : conf_file) (given : option credentials) : cres client :=
  let get name := cconf F name (lit "AAUTH") in
  cbind (get (lit "CLIENT_TYPE")) (fun ty =>
  cbind (get (lit "SERVICE_DESCRIPTION")) (fun desc =>
  cbind (get (lit "KEY_SIZE")) (fun size =>
  cbind (match size with
         | None => CBad (CPy EType)
         | Some s => match int_base U 10 s with Ok z => COk z | Err e => CBad (CPy e) end
         end) (fun size =>
  cbind (match given with
         | Some c => COk c
         | None => cbind (get (lit "CRED_TYPE")) (fun t => cbind (get (lit "CRED_USER")) (fun u => cbind (get (lit "CRED_PASS")) (fun p => COk (Cred t u p))))
         end) (fun cred =>
  cbind (open_service ty desc) (fun c => COk (Client ty desc size None cred c))))))).
(** 34-48 *)
Definition or_old {A} (new old : option A) : option A := match new with Some x => Some x | None => old end.
Definition update_service (url ty : option str) (c : client) : client * cres unit :=
  let desc := or_old url (cl_desc c) in
  let ty := or_old ty (cl_type c) in
  match open_service ty desc with
  | COk k => (Client ty desc (cl_size c) (cl_last c) (cl_cred c) k, COk tt)
  | CBad e => (Client ty desc (cl_size c) (cl_last c) (cl_cred c) (cl_conn c), CBad e)
  end.
(** 50-59, and hgaa/clients/pauth.py 38-47 and 49-59: the status is looked at, a fault is not. *)
Definition plain_call {V} (net : conn -> option (reply V)) (c : conn) : cres V :=
  match net c with
  | None => CBad CNet
  | Some r =>
      if negb (rp_status r =? 200) then CBad CStatus
      else match rp_result r with Some v => COk v | None => CBad (CPy EKey) end
  end.
Definition client_info {V} (net : conn -> option (reply V)) (c : client) : cres V := plain_call net (cl_conn c).
(** 61-99; exportKey gives ASCII, so that decode does not raise.  The key is remembered before
    the result is looked up. *)
Definition client_request {V} (net : conn -> sent -> option (reply V)) (names ids : option (list (option str))) (key : option (prv K)) (c : client) : client * cres V :=
  match (match key with None => generate (cl_size c) | Some k => Ok k end) with
  | Err e => (c, CBad (CPy e))
  | Ok k =>
      let size := match key with None => cl_size c | Some k => bits k end in
      match utf8_decode (pem k) with
      | Err e => (c, CBad (CPy e))
      | Ok text =>
          match net (cl_conn c) (Sent (cl_cred c) text (lit "RSA") size names ids) with
          | None => (c, CBad CNet)
          | Some r =>
              if negb (rp_status r =? 200) then (c, CBad CStatus)
              else match rp_fault r with
                   | Some f => (c, CBad (CFault f))
                   | None =>
                       (Client (cl_type c) (cl_desc c) (cl_size c) (Some k) (cl_cred c) (cl_conn c),
                        match rp_result r with Some v => COk v | None => CBad (CPy EKey) end)
                   end
          end
      end
  end.

(** ** hgaa/clients/pauth.py *)

Record pclient : Type := PClient { pc_uid : str; pc_type : option str; pc_desc : option str; pc_conn : conn }.
(** 10-20 *)
Definition new_pclient (F : conf_file) (uid : str) : cres pclient :=
  cbind (cconf F (lit "CLIENT_TYPE") (lit "PAUTH")) (fun ty =>
  cbind (cconf F (lit "SERVICE_DESCRIPTION") (lit "PAUTH")) (fun desc =>
  cbind (open_service ty desc) (fun c => COk (PClient uid ty desc c)))).
(** 22-36 *)
Definition update_pservice (url ty : option str) (c : pclient) : pclient * cres unit :=
  let desc := or_old url (pc_desc c) in
  let ty := or_old ty (pc_type c) in
  match open_service ty desc with
  | COk k => (PClient (pc_uid c) ty desc k, COk tt)
  | CBad e => (PClient (pc_uid c) ty desc (pc_conn c), CBad e)
  end.
(** 61-69: the response, whatever it is. *)
Definition client_session {V} (net : conn -> str -> list bytes -> option (reply V)) (certs : list bytes) (c : pclient) : cres (reply V) :=
  match net (pc_conn c) (pc_uid c) certs with Some r => COk r | None => CBad CNet end.

End WithNet.
