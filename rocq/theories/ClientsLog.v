(** * ClientsLog: what hgaa/clients/aauth.py and hgaa/clients/pauth.py record, and whom they call

    The functions of [Clients] again, with the records given to LOG and the calls made on a connection, in the
    order they happen.  The texts of the exceptions are not modelled (that for an unsupported client type is the
    text recorded). *)

From Coq Require Import NArith ZArith List Bool String.
From Verif Require Import PyBase Struct AttCert Config PAuth AAuth Demo AAuthLog Clients.
Import ListNotations.
Open Scope Z_scope.

Section WithNet.
Variable U : unicode.
Variable K : crypto.
Variable pem : prv K -> bytes.
Variable bits : prv K -> Z.
Variable conn : Type.
Variable connect : option str -> option conn.
Variable generate : Z -> res (prv K).
Notation client := (client K conn).
Notation pclient := (pclient conn).

(** A record, a connection opened for a description, a call on a connection. *)
Inductive event : Type := Noted (r : lrec) | Opened (desc : option str) | Called (k : conn).
Definition informed (t : str) : event := Noted (LRec info_level t).

(** hgaa/clients/aauth.py 27-32 and 43-48, hgaa/clients/pauth.py 15-20 and 31-36 *)
Definition n_open (ty desc : option str) : list event * cres conn :=
  if jsonwsp ty then ([informed (lit "Setting up JSONWSP client for service " ++ show desc); Opened desc],
                      match connect desc with Some c => COk c | None => CBad CNet end)
  else ([Noted (LRec error_level (show ty ++ lit " client type is not yet supported."))], CBad CType).
(** hgaa/clients/aauth.py 13-32 *)
Definition n_client (F : conf_file) (given : option credentials) : list event * cres client :=
  let get name := cconf U F name (lit "AAUTH") in
  match cbind (get (lit "CLIENT_TYPE")) (fun ty =>
        cbind (get (lit "SERVICE_DESCRIPTION")) (fun desc =>
        cbind (get (lit "KEY_SIZE")) (fun size =>
        cbind (match size with
               | None => CBad (CPy EType)
               | Some s => match int_base U 10 s with Ok z => COk z | Err e => CBad (CPy e) end
               end) (fun size =>
        cbind (match given with
               | Some c => COk c
               | None => cbind (get (lit "CRED_TYPE")) (fun t => cbind (get (lit "CRED_USER")) (fun u => cbind (get (lit "CRED_PASS")) (fun p => COk (Cred t u p))))
               end) (fun cred => COk (ty, desc, size, cred)))))) with
  | CBad e => ([], CBad e)
  | COk (ty, desc, size, cred) =>
      let '(l, r) := n_open ty desc in
      (l, cbind r (fun c => COk (Client K conn ty desc size None cred c)))
  end.
(** 34-48 *)
Definition n_update (url ty : option str) (c : client) : list event * (client * cres unit) :=
  let desc := or_old url (cl_desc K conn c) in
  let ty := or_old ty (cl_type K conn c) in
  let '(l, r) := n_open ty desc in
  (informed (lit "Updating service for change of url and/or client type.") :: l,
   match r with
   | COk k => (Client K conn ty desc (cl_size K conn c) (cl_last K conn c) (cl_cred K conn c) k, COk tt)
   | CBad e => (Client K conn ty desc (cl_size K conn c) (cl_last K conn c) (cl_cred K conn c) (cl_conn K conn c), CBad e)
   end).
(** 50-59, and hgaa/clients/pauth.py 38-47 and 49-59 *)
Definition n_call {V} (method : string) (net : conn -> option (reply V)) (desc : option str) (k : conn) : list event * cres V :=
  ([informed (lit "Calling " ++ lit method ++ lit " method for service " ++ show desc); Called k],
   match net k with
   | None => CBad CNet
   | Some r =>
       if negb (rp_status r =? 200) then CBad CStatus
       else match rp_result r with Some v => COk v | None => CBad (CPy EKey) end
   end).
Definition n_info {V} (net : conn -> option (reply V)) (c : client) : list event * cres V := n_call "info" net (cl_desc K conn c) (cl_conn K conn c).
(** 61-99 *)
Definition n_request {V} (net : conn -> sent -> option (reply V)) (names ids : option (list (option str))) (key : option (prv K)) (c : client)
    : list event * (client * cres V) :=
  let l1 := match key with
            | None => [informed (lit "Generating session key of size " ++ str_of_Z (cl_size K conn c) ++ lit " for attribute request with " ++ show (cl_desc K conn c))]
            | Some _ => []
            end in
  match (match key with None => generate (cl_size K conn c) | Some k => Ok k end) with
  | Err e => (l1, (c, CBad (CPy e)))
  | Ok k =>
      let size := match key with None => cl_size K conn c | Some k => bits k end in
      let l2 := l1 ++ [informed (lit "Public session key is " ++ bytes_str (pem k))] in
      match utf8_decode (pem k) with
      | Err e => (l2, (c, CBad (CPy e)))
      | Ok text =>
          (l2 ++ [informed (lit "Calling attribute_request method for service " ++ show (cl_desc K conn c)); Called (cl_conn K conn c)],
           match net (cl_conn K conn c) (Sent (cl_cred K conn c) text (lit "RSA") size names ids) with
           | None => (c, CBad CNet)
           | Some r =>
               if negb (rp_status r =? 200) then (c, CBad CStatus)
               else match rp_fault r with
                    | Some f => (c, CBad (CFault f))
                    | None =>
                        (Client K conn (cl_type K conn c) (cl_desc K conn c) (cl_size K conn c) (Some k) (cl_cred K conn c) (cl_conn K conn c),
                         match rp_result r with Some v => COk v | None => CBad (CPy EKey) end)
                    end
           end)
      end
  end.

(** hgaa/clients/pauth.py 10-20 *)
Definition n_pclient (F : conf_file) (uid : str) : list event * cres pclient :=
  match cbind (cconf U F (lit "CLIENT_TYPE") (lit "PAUTH")) (fun ty =>
        cbind (cconf U F (lit "SERVICE_DESCRIPTION") (lit "PAUTH")) (fun desc => COk (ty, desc))) with
  | CBad e => ([], CBad e)
  | COk (ty, desc) => let '(l, r) := n_open ty desc in (l, cbind r (fun c => COk (PClient conn uid ty desc c)))
  end.
(** 22-36 *)
Definition n_pupdate (url ty : option str) (c : pclient) : list event * (pclient * cres unit) :=
  let desc := or_old url (pc_desc conn c) in
  let ty := or_old ty (pc_type conn c) in
  let '(l, r) := n_open ty desc in
  (informed (lit "Updating service for change of url and/or client type.") :: l,
   match r with
   | COk k => (PClient conn (pc_uid conn c) ty desc k, COk tt)
   | CBad e => (PClient conn (pc_uid conn c) ty desc (pc_conn conn c), CBad e)
   end).
(** 38-59 *)
Definition n_pinfo {V} (net : conn -> option (reply V)) (c : pclient) : list event * cres V := n_call "info" net (pc_desc conn c) (pc_conn conn c).
Definition n_ptrusted {V} (net : conn -> option (reply V)) (c : pclient) : list event * cres V :=
  n_call "trusted_attribute_authorities" net (pc_desc conn c) (pc_conn conn c).
(** 61-69 *)
Definition n_session {V} (net : conn -> str -> list bytes -> option (reply V)) (certs : list bytes) (c : pclient) : list event * cres (reply V) :=
  ([informed (lit "Calling start_session method for service " ++ show (pc_desc conn c)); Called (pc_conn conn c)],
   match net (pc_conn conn c) (pc_uid conn c) certs with Some r => COk r | None => CBad CNet end).
End WithNet.
Arguments Noted {conn}. Arguments Opened {conn}. Arguments Called {conn}. Arguments informed {conn}.
