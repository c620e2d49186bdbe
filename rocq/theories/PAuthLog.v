(** * PAuthLog: start_session and evaluate of hgaa/services/pauth.py with their log records and the texts
    of their faults

    The same functions as in [PAuth], which has neither records nor texts; the writer is that of
    [AAuthLog].  [addr] is exports['REMOTE_ADDR'], None if there is none: reading it then raises a KeyError
    at the places where the code reads it.  [other] is what str() gives for an exception of Python itself. *)

From Coq Require Import NArith ZArith List Bool String.
From Verif Require Import PyBase Lexer Ast Parser TypeCheck Struct AttCert PAuth LexDiag Diag TypeDiag AAuthLog.
Import ListNotations.
Open Scope Z_scope.

Section Service.
Variable K : crypto.
Variable U : unicode.
Variable addr : option str.
Variable other : exc -> str.

(** exports['REMOTE_ADDR'] *)
Definition remote : lw str := match addr with Some a => lw_ret a | None => lw_stop (Crash EKey) end.
(** LOG.error(log % exports['REMOTE_ADDR']) and raise ClientFault(text), where the address ends the record. *)
Definition blame {A} (log text : str) : lw A :=
  a <$ remote ;; _ <$ say error_level (log ++ a) ;; lw_stop (Fault text).

(** 172-208, _check_cert; [now] is the clock if verify_time is reached. *)
Definition l_check_cert (r : raw_cert) (f : xformat) (rows : list aauth_row) (now : Z) : lw cert :=
  if negb (rw_version r =? ac_version) then
    blame (lit "ClientFault: Invalid ac version in request from ") (lit "Unsupported attribute certificate version in certificate set.")
  else match f with
  | FText | FXml =>
      blame (lit "ClientFault: Invalid ac format in request from ") (lit "Unsupported attribute certificate format in certificate set.")
  | _ =>
      match ac_import K (InArray (rw_data r)) f true with
      | Err _ =>
          blame (lit "ClientFault: Could not verify ac in request from ")
            (lit "Could to verify signature of attribute certificate in certificate set.")
      | Ok c =>
          let untrusted := blame (lit "ClientFault: aauth in ac is not trusted in request from ")
            (lit "An attribute authority in an attribute certificate in your certificate set is not trusted.") in
          match aauth_get rows (is_uid (c_issuer c)) with
          | None => untrusted
          | Some a =>
              if aa_trust a <=? 0 then untrusted
              else if negb (verify_time c now) then
                blame (lit "ClientFault: ac is expired in evaluate from ") (lit "An attribute certificate in your certificate set is expired.")
              else lw_ret c
          end
      end
  end.

(** 243-277 *)
Fixpoint l_session_loop (d : pdb) (b64_session : str) (now : nat -> Z) (i : nat) (l : list raw_cert) (st : loop_state)
  : lw loop_state :=
  match l with
  | [] => lw_ret st
  | r :: l =>
      f <$ lw_of (format_of (rw_format r)) ;;
      c <$ l_check_cert r f (d_aauths d) (now (S i)) ;;
      let before := rv_before (c_rev c) in
      let issued := i_issued (c_info c) in
      let mn := if (ls_min st =? -1) || (before <? ls_min st) then before else ls_min st in
      let mx := if (ls_max st =? -1) || (issued >? ls_max st) then issued else ls_max st in
      s <$ lw_of (int_to_b64 (i_serial (c_info c))) ;;
      let h := text_hash K (data_left r f) in
      new <$ (match find (fun row => str_eqb (cr_serial row) s) (d_certs d) with
              | None => lw_ret [CertRow s (rw_data r) (rw_format r) (rw_version r) before h]
              | Some row =>
                  if str_eqb (cr_hash row) h then lw_ret []
                  else
                    a <$ remote ;;
                    _ <$ say error_level (lit "ClientFault: Cert with serial " ++ s ++ lit " in request from " ++ a ++
                                          lit " is already in database but hash does not match!") ;;
                    lw_stop (Fault (lit "Certificate serial already in use."))
              end) ;;
      l_session_loop d b64_session now (S i) l
        (LS mn mx (s :: ls_done st) (ls_certs st ++ new) (ls_links st ++ [Link s b64_session]))
  end.

(** 215-301, start_session; the record of 293 is made before add_all and commit. *)
Definition l_start_session (d : pdb) (service : option str) (set : option (option (list raw_cert)))
    (sid : Z) (now : nat -> Z) : lw (pdb * session_ret) :=
  let start := now O in
  let till := start + max_session in
  match set with
  | None | Some None | Some (Some []) =>
      blame (lit "ClientFault: No att cert set in start_session request from ") (lit "Need attribute certificate set to start session.")
  | Some (Some l) =>
      b64 <$ lw_of (int_to_b64 sid) ;;
      st <$ l_session_loop d b64 now O l (LS (-1) (-1) [] [] []) ;;
      let till := if ls_min st <? till then ls_min st else till in
      match ls_done st with
      | [] =>
          blame (lit "ClientFault: No valid certs in start_session request from ")
            (lit "Need at least one valid attribute certificate in your certificate set.")
      | _ =>
          a <$ remote ;;
          _ <$ say info_level (lit "Adding session and attribute certs as result of start_session request from " ++ a) ;;
          match service with
          | None => lw_stop (Crash EIntegrity)
          | Some uid =>
              d' <$ lw_of (commit d (ls_certs st) (ls_links st) (Sess b64 (ls_max st) (ls_min st) start a uid till)) ;;
              lw_ret (d', SessionRet sid till start)
          end
      end
  end.

(** 325-331: str() of the exception lexing, parsing and type checking a policy raise, if any. *)
Definition policy_error (policy : str) : option str :=
  match ld_tokenize U (lexer_init policy) with
  | (Some (RSyn e), _) => Some (lerror_str policy e)
  | (Some (RExc x), _) => Some (other x)
  | (None, l) =>
      match d_parse U (lx_toks l) (-1) with
      | DSyn e => Some (perror_str U policy e)
      | DExc x => Some (other x)
      | DOk (a, _) =>
          match snd (m_check U (mchecker_new a) 0) with
          | MReturned _ => None
          | MRaised x => Some (issue_str policy x)
          | MCrashed x => Some (other x)
          end
      end
  end.

(** 305-370, evaluate, to the query that raises a TypeError. *)
Definition l_evaluate (same_id : str -> Z -> bool) (d : pdb) (session_id : Z) (p : pair_obj) : lw unit :=
  uid <$ lw_of (getattr (pr_uid p)) ;;
  no_policy <$ (match uid with
                | None => s <$ lw_of (getattr (pr_string p)) ;; lw_ret (match s with None => true | Some _ => false end)
                | Some _ => lw_ret false end) ;;
  if (no_policy : bool) then
    blame (lit "ClientFault: Need to give policy uid or policy string in evaluate request from ")
      (lit "Need to give policy uid or policy string.")
  else
  policy <$ (match uid with
             | Some u =>
                 match d_sessions d, find (fun q => str_eqb (po_uid q) u) (d_policies d) with
                 | _ :: _, Some q => _ <$ lw_of (session_attr (lit "policy")) ;; lw_ret (po_text q)
                 | _, _ => blame (lit "ClientFault: Unknown policy uid in evaluate request from ") (lit "Unknown policy uid.")
                 end
             | None => s <$ lw_of (getattr (pr_string p)) ;; lw_ret (match s with Some s => s | None => [] end)
             end) ;;
  _ <$ (match policy_error policy with
        | None => lw_ret tt
        | Some e =>
            a <$ remote ;;
            _ <$ say error_level (lit "ClientFault: Invalid policy in evaluate request from " ++ a ++ lit ", error is " ++ e) ;;
            lw_stop (Fault (lit "Invalid policy: " ++ e))
        end) ;;
  atts <$ lw_of (getattr (pr_atts p)) ;;
  _ <$ (match atts with
        | Some l =>
            if existsb (fun a => match oa_name a, oa_uid a with None, None => true | _, _ => false end) l
            then blame (lit "ClientFault: Attribute without name or uid in evaluate request from ")
                   (lit "Attribute without name or uid, need one or the other.")
            else lw_ret tt
        | None => lw_ret tt
        end) ;;
  match find (fun s => same_id (se_id s) session_id) (d_sessions d) with
  | None => blame (lit "ClientFault: Unknown session_id in evaluate request from ") (lit "Unknown session_id.")
  | Some _ => _ <$ lw_of (session_attr (lit "valid_till")) ;; lw_stop (Crash EType)
  end.
End Service.
