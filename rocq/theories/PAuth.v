(** * PAuth: model of hgaa/services/pauth.py, the policy authority, and of the tables of
    hgaa/schema/pauth.py

    A database is a list of rows for each table.  Texts are compared exactly; column lengths
    and the size of INTEGER columns are not modelled.  Of the database's constraints the
    primary keys and NOT NULL are checked (at commit), foreign keys are not (SQLite does not
    by default).  A request that raises leaves the database as it was, since nothing is added
    before the one commit at the end.  Logging is not modelled. *)

From Coq Require Import NArith ZArith List Bool String.
From Verif Require Import PyBase Lexer Ast Parser TypeCheck Struct AttCert.
Import ListNotations.
Open Scope Z_scope.

(** ** Tables, hgaa/schema/pauth.py 13-21, 42-47, 52-59, 64-67, 73-81 *)

Record aauth_row : Type := AAuth {
  aa_uid : str; aa_name : str; aa_url : str; aa_cipher : str; aa_size : Z; aa_key : str; aa_trust : Z }.
Record policy_row : Type := PolicyRow { po_uid : str; po_name : option str; po_text : str }.
Record cert_row : Type := CertRow {
  cr_serial : str; cr_cert : bytes; cr_format : Z; cr_version : Z; cr_till : Z; cr_hash : str }.
Record link_row : Type := Link { lk_serial : str; lk_session : str }.
Record sess_row : Type := Sess {
  se_id : str; se_cert_start : Z; se_cert_till : Z; se_start : Z; se_ip : str; se_service : str; se_till : Z }.
Record pdb : Type := PDB {
  d_aauths : list aauth_row; d_policies : list policy_row; d_certs : list cert_row;
  d_links : list link_row; d_sessions : list sess_row }.

(** ** Requests *)

(** AttributeCertificateType, 55-59, with the bytes of its attachment. *)
Record raw_cert : Type := Raw { rw_data : bytes; rw_version : Z; rw_format : Z }.
(** SessionReturn, 75-78 *)
Record session_ret : Type := SessionRet { sr_id : Z; sr_till : Z; sr_start : Z }.

(** [ExportFormat(n)], hgaa/attcert.py 455-460: ValueError for another number. *)
Definition format_of (n : Z) : res xformat :=
  if n =? 0 then Ok FBytes else if n =? 1 then Ok FText else if n =? 2 then Ok FXml
  else if n =? 3 then Ok FBase64 else if n =? 4 then Ok FBase64Full else Err EValue.

(** 99-104 *)
Definition ac_version : Z := 1.
Definition max_session : Z := 86400.

(** 210-212, _int_to_b64(n, 160): OverflowError for a number that does not fit. *)
Definition int_to_b64 (n : Z) : res str :=
  if (0 <=? n) && (n <? 256 ^ Z.of_nat serial_bytes) then Ok (b64encode (le_bytes serial_bytes (Z.to_N n)))
  else Err EOverflow.

(** 220-223 and aauth_dict.get: of rows with one uid the last is kept. *)
Definition aauth_get (rows : list aauth_row) (uid : str) : option aauth_row :=
  fold_left (fun acc r => if str_eqb (aa_uid r) uid then Some r else acc) rows None.

Section WithCrypto.
Variable K : crypto.

(** 172-208, _check_cert; [now] is the clock if verify_time is reached. *)
Definition check_cert (r : raw_cert) (f : xformat) (rows : list aauth_row) (now : Z) : res cert :=
  if negb (rw_version r =? ac_version) then Err EClientFault
  else match f with
  | FText | FXml => Err EClientFault
  | _ =>
      match ac_import K (InArray (rw_data r)) f true with
      | Err _ => Err EClientFault
      | Ok c =>
          match aauth_get rows (is_uid (c_issuer c)) with
          | None => Err EClientFault
          | Some a =>
              if aa_trust a <=? 0 then Err EClientFault
              else if negb (verify_time c now) then Err EClientFault
              else Ok c
          end
      end
  end.

(** The bytearray [data_raw] after a successful import: decoding consumes it, but for base64
    text the decoder consumes a copy. *)
Definition data_left (r : raw_cert) (f : xformat) : bytes :=
  match f with FBytes => [] | _ => rw_data r end.

(** 261 *)
Definition text_hash (b : bytes) : str := b64encode (k_hash K b).

(** The variables of the loop 243-277. *)
Record loop_state : Type := LS {
  ls_min : Z; ls_max : Z; ls_done : list str; ls_certs : list cert_row; ls_links : list link_row }.

(** 243-277; the i-th certificate is checked at time [now (i + 1)]. *)
Fixpoint session_loop (d : pdb) (b64_session : str) (now : nat -> Z) (i : nat) (l : list raw_cert) (st : loop_state)
  : res loop_state :=
  match l with
  | [] => Ok st
  | r :: l =>
      f <- format_of (rw_format r) ;;
      c <- check_cert r f (d_aauths d) (now (S i)) ;;
      let before := rv_before (c_rev c) in
      let issued := i_issued (c_info c) in
      let mn := if (ls_min st =? -1) || (before <? ls_min st) then before else ls_min st in
      let mx := if (ls_max st =? -1) || (issued >? ls_max st) then issued else ls_max st in
      s <- int_to_b64 (i_serial (c_info c)) ;;
      let h := text_hash (data_left r f) in
      new <- (match find (fun row => str_eqb (cr_serial row) s) (d_certs d) with
              | None => Ok [CertRow s (rw_data r) (rw_format r) (rw_version r) before h]
              | Some row => if str_eqb (cr_hash row) h then Ok [] else Err EClientFault
              end) ;;
      session_loop d b64_session now (S i) l
        (LS mn mx (s :: ls_done st) (ls_certs st ++ new) (ls_links st ++ [Link s b64_session]))
  end.

(** Whether new primary keys clash with each other or with stored ones. *)
Fixpoint clash {A} (eqb : A -> A -> bool) (new old : list A) : bool :=
  match new with
  | [] => false
  | x :: r => existsb (eqb x) r || existsb (eqb x) old || clash eqb r old
  end.
Definition link_eqb (a b : link_row) : bool :=
  str_eqb (lk_serial a) (lk_serial b) && str_eqb (lk_session a) (lk_session b).

(** 294-295, add_all and commit: IntegrityError for a primary key in use. *)
Definition commit (d : pdb) (certs : list cert_row) (links : list link_row) (s : sess_row) : res pdb :=
  if clash str_eqb (map cr_serial certs) (map cr_serial (d_certs d)) ||
     clash link_eqb links (d_links d) ||
     clash str_eqb [se_id s] (map se_id (d_sessions d))
  then Err EIntegrity
  else Ok (PDB (d_aauths d) (d_policies d) (d_certs d ++ certs) (d_links d ++ links) (d_sessions d ++ [s])).

(** 215-301, start_session.  [set]: the certificate set or None, [sid]: getrandbits(160),
    [now 0]: the clock at the start, [ip]: exports['REMOTE_ADDR']. *)
Definition start_session_res (d : pdb) (service : option str) (set : option (option (list raw_cert)))
    (sid : Z) (now : nat -> Z) (ip : str) : res (pdb * session_ret) :=
  let start := now O in
  let till := start + max_session in
  match set with
  | None | Some None | Some (Some []) => Err EClientFault
  | Some (Some l) =>
      b64 <- int_to_b64 sid ;;
      st <- session_loop d b64 now O l (LS (-1) (-1) [] [] []) ;;
      let till := if ls_min st <? till then ls_min st else till in
      match ls_done st with
      | [] => Err EClientFault
      | _ =>
          match service with
          | None => Err EIntegrity
          | Some uid =>
              d' <- commit d (ls_certs st) (ls_links st) (Sess b64 (ls_max st) (ls_min st) start ip uid till) ;;
              Ok (d', SessionRet sid till start)
          end
      end
  end.
Definition start_session d service set sid now ip : pdb * res session_ret :=
  match start_session_res d service set sid now ip with
  | Ok (d', r) => (d', Ok r)
  | Err e => (d, Err e)
  end.

End WithCrypto.

(** 135-157, trusted_attribute_authorities: one entry for each row. *)
Definition trusted_authorities (d : pdb) : list (str * str * str * str * Z * (Z * str)) :=
  map (fun a => (aa_name a, aa_uid a, aa_url a, aa_key a, aa_trust a, (aa_size a, aa_cipher a))) (d_aauths d).

(** ** evaluate *)

(** An object's attribute: missing (AttributeError) or there. *)
Inductive attr (A : Type) : Type := Missing | Has (a : A).
Arguments Missing {A}. Arguments Has {A}.
Definition getattr {A} (a : attr A) : res A := match a with Missing => Err EAttribute | Has x => Ok x end.

(** ObjectAttribute, 67-72 *)
Record obj_att : Type := ObjAtt { oa_name : option str; oa_uid : option str }.
(** The attributes evaluate reads of its policy_objatt_pair. *)
Record pair_obj : Type := PairObj {
  pr_uid : attr (option str); pr_string : attr (option str); pr_atts : attr (option (list obj_att)) }.
(** The object Ladon makes of a PolicyObjectAttPair, 92-95: its fields are policy and
    object_attributes. *)
Definition ladon_pair (atts : option (list obj_att)) : pair_obj := PairObj Missing Missing (Has atts).

(** The attributes of a Session row object: columns and relationship, hgaa/schema/pauth.py
    73-83. *)
Definition session_attributes : list str :=
  [lit "id"; lit "cert_start"; lit "cert_valid_till"; lit "session_start"; lit "initial_service_ip";
   lit "service_uid"; lit "session_valid_till"; lit "attribute_certificates"].
Definition session_attr (name : str) : res unit :=
  if existsb (str_eqb name) session_attributes then Ok tt else Err EAttribute.

(** 325-336, the policy text is lexed, parsed and type checked, with any exception turned
    into a ClientFault. *)
Definition check_policy (U : unicode) (policy : str) : res unit :=
  match parse_text U policy (-1) with
  | Err _ => Err EClientFault
  | Ok (a, _) => match snd (check U (checker_new a) 0) with Returned _ => Ok tt | _ => Err EClientFault end
  end.

(** 305-397, evaluate.  [same_id] compares a stored session id with the integer session_id
    as the database does.  The query of 370 calls filter_by with a positional argument, a
    TypeError; nothing after it is modelled. *)
Definition evaluate (U : unicode) (same_id : str -> Z -> bool) (d : pdb) (session_id : Z) (p : pair_obj) : res unit :=
  uid <- getattr (pr_uid p) ;;
  no_policy <- (match uid with None => s <- getattr (pr_string p) ;; Ok (match s with None => true | Some _ => false end)
                | Some _ => Ok false end) ;;
  if no_policy then Err EClientFault else
  policy <- (match uid with
             | Some u =>
                 (* the rows of sessions joined with the policies of that uid *)
                 match d_sessions d, find (fun q => str_eqb (po_uid q) u) (d_policies d) with
                 | _ :: _, Some q => _ <- session_attr (lit "policy") ;; Ok (po_text q)
                 | _, _ => Err EClientFault
                 end
             | None => s <- getattr (pr_string p) ;; Ok (match s with Some s => s | None => [] end)
             end) ;;
  _ <- check_policy U policy ;;
  atts <- getattr (pr_atts p) ;;
  _ <- (match atts with
        | Some l => if existsb (fun a => match oa_name a, oa_uid a with None, None => true | _, _ => false end) l
                    then Err EClientFault else Ok tt
        | None => Ok tt
        end) ;;
  match find (fun s => same_id (se_id s) session_id) (d_sessions d) with
  | None => Err EClientFault
  | Some _ => _ <- session_attr (lit "valid_till") ;; Err EType
  end.
