(** * AAuthLogSpec: what the attribute authority records and tells its clients (C114) *)

From Coq Require Import NArith ZArith List Bool String.
From Verif Require Import PyBase PyNum Struct AttCert AAuth AAuthSpec Demo Show AAuthLog.
Import ListNotations.
Open Scope Z_scope.

(** The outcome without records and texts. *)
Definition forget {A} (m : lw A) : res A := match snd m with inl a => Ok a | inr s => Err (plain_stop s) end.

(** The first name asked for that is not there; empty texts, stars and None ask for nothing. *)
Definition first_missing (l : list (option str)) (has : str -> Prop) (s : str) : Prop :=
  exists a b, l = a ++ Some s :: b /\ s <> [] /\ s <> lit "*" /\ ~ has s /\
    forall t, In (Some t) a -> t <> [] -> t <> lit "*" -> has t.

Section WithCrypto.
Variable K : crypto.
Variable U : unicode.
Variable checkpw : bytes -> bytes -> res bool.
Variable hashpw : bytes -> bytes -> res bytes.
Variable debug : bool.
Variable sp : spans.
Variable au : authority K.
Variable d : adb.
Variable q : request.

(** bcrypt.checkpw computes the hash of the password with the stored hash as salt and compares. *)
Definition bcrypt_agrees : Prop :=
  forall pw hash, checkpw pw hash = match hashpw pw hash with Ok r => Ok (bytes_eqb r hash) | Err e => Err e end.

(** The two texts bcrypt is given. *)
Definition compares (user : user_row) (pw hash : bytes) : Prop :=
  utf8_encode ((match rq_password q with Some p => p | None => lit "None" end) ++
               (match au_pepper au with Some p => p | None => lit "None" end)) = Ok pw /\
  utf8_encode (us_password user) = Ok hash.

(** The record of the hash, made for DEBUG only. *)
Inductive hash_noted (pw hash : bytes) : list lrec -> Prop :=
| hn_off : debug = false -> hash_noted pw hash []
| hn_on : forall r, debug = true -> hashpw pw hash = Ok r -> hash_noted pw hash [LRec 10 (lit "Hash for request is: " ++ bytes_str r)].

Definition request_rec (addr : str) : lrec := LRec 20 (lit "Attribute request on AttributeAuthority from " ++ addr ++ lit ".").
Definition login_rec (name addr : str) : lrec := LRec 20 (lit "Successful login by " ++ name ++ lit " from " ++ addr ++ lit ".").
(** The records up to the selection of attributes. *)
Inductive logged_in (addr name : str) (user : user_row) : list lrec -> Prop :=
| li_all : forall pw hash hl, rq_type q = 0 -> rq_username q = Some name -> In user (d_users d) -> us_name user = py_lower U name ->
    compares user pw hash -> checkpw pw hash = Ok true -> hash_noted pw hash hl ->
    logged_in addr name user
      ([request_rec addr] ++ hl ++
       [login_rec name addr; LRec 20 (lit "Time to login: " ++ sp_login sp ++ lit " seconds.");
        LRec 20 (lit "Time to get atts: " ++ sp_get sp ++ lit " seconds.")]).

(** The faults: the text the client is told and all records. *)
Inductive refused (addr : str) : str -> list lrec -> Prop :=
| rf_type : rq_type q <> 0 ->
    refused addr (lit "Unsupported credential type.")
      [request_rec addr;
       LRec 10 (lit "ClientFault: Unsupported credential type: " ++ str_of_Z (rq_type q) ++ lit " in attribute_request from " ++ addr)]
| rf_user : forall name, rq_type q = 0 -> rq_username q = Some name ->
    (forall u, In u (d_users d) -> us_name u <> py_lower U name) ->
    refused addr (lit "Invalid credentials.")
      [request_rec addr;
       LRec 20 (lit "ClientFault: No such username (" ++ name ++ lit ") found in attribute_request from " ++ addr)]
| rf_password : forall name user pw hash hl, rq_type q = 0 -> rq_username q = Some name ->
    In user (d_users d) -> us_name user = py_lower U name -> compares user pw hash -> checkpw pw hash = Ok false -> hash_noted pw hash hl ->
    refused addr (lit "Invalid credentials.")
      ([request_rec addr] ++ hl ++
       [LRec 20 (lit "ClientFault: Bad password for user " ++ name ++ lit " in attribute_request from " ++ addr)])
| rf_id : forall name user ids names i l, logged_in addr name user l -> rq_ids q = Some ids -> rq_names q = Some names ->
    first_missing ids (fun i => exists a v, assigned d (us_id user) a v /\ ar_id a = i) i ->
    refused addr (lit "Invalid attribute id: You have not been assigned the attribute " ++ i ++ lit ".")
      (l ++ [LRec 10 (name ++ lit " has requested a subset or their attributes.");
             LRec 20 (name ++ lit " requested the attribute " ++ i ++
                      lit " but they have not been assigned                             that attribute.")])
| rf_name : forall name user ids names n l, logged_in addr name user l -> rq_ids q = Some ids -> rq_names q = Some names ->
    (forall i, asks (rq_ids q) i -> exists a v, assigned d (us_id user) a v /\ ar_id a = i) ->
    first_missing names (fun n => exists a v, assigned d (us_id user) a v /\ ar_name a = n) n ->
    refused addr (lit "Invalid attribute id: You have not been assigned an attribute with the name " ++ n ++ lit ".")
      (l ++ [LRec 10 (name ++ lit " has requested a subset or their attributes.");
             LRec 20 (name ++ lit " requested the attribute by name (" ++ n ++
                      lit ") but they have not been assigned an attribute with that name.")]).

(** The records of a request that is granted: [ids] are the attributes activated, [size] the length of
    the certificate. *)
Inductive granted_log (addr : str) (ids : list str) (size : nat) : list lrec -> Prop :=
| gl_all : forall name user l, logged_in addr name user l ->
    granted_log addr ids size
      (l ++ [LRec 10 (name ++ (if match rq_ids q, rq_names q with
                                  | Some i, Some n => forallb (fun o => match o with Some s => str_eqb s [] || str_eqb s (lit "*") | None => true end) (i ++ n)
                                  | _, _ => true end
                               then lit " has requested all attributes." else lit " has requested a subset or their attributes."));
             LRec 20 (name ++ lit " has activated the following attributes: [" ++ join (lit ", ") ids ++ lit "]");
             LRec 20 (lit "Time to proccess atts: " ++ sp_process sp ++ lit " seconds.");
             LRec 20 (lit "AC generation time: " ++ sp_make sp ++ lit " seconds.");
             LRec 20 (lit "AC Byte Encoded Size: " ++ str_of_Z (Z.of_nat size) ++ lit " bytes.");
             LRec 20 (lit "Time make AC: " ++ sp_total sp ++ lit " seconds.");
             LRec 20 (lit "Time to add attachment: " ++ sp_attach sp ++ lit " seconds.")]).
End WithCrypto.

(** The same request with another password, the same authority with another pepper. *)
Definition with_password (p : option str) (q : request) : request :=
  Request (rq_type q) (rq_username q) p (rq_key q) (rq_cipher q) (rq_size q) (rq_ids q) (rq_names q) (rq_exports q).
Definition with_pepper {K} (p : option str) (au : authority K) : authority K :=
  Authority K (au_name au) (au_uri au) (au_rev_url au) (au_url au) p (au_length au) (au_key au) (au_pub au) (au_bits au).
(** The records a logger for INFO writes. *)
Definition from_info (l : list lrec) : list lrec := filter (fun r => 20 <=? lr_level r) l.
