(** * PAuthLogSpec: what the policy authority records and tells its clients (C115, C116) *)

From Coq Require Import NArith ZArith List Bool String.
From Verif Require Import PyBase PyNum Lexer LexSpec Ast Parser Grammar ParsePos Syntax Values TypeCheck TypeSpec Struct AttCert CertSpec CertProps2 PAuth PAuthSpec
  Errors ErrorProps Diag DiagSpec LexDiag LexDiagSpec TypeDiag TypeDiagSpec ShownProps AAuthLog.
Import ListNotations.
Open Scope Z_scope.

(** A certificate that can be read and has a correct signature under the key it contains. *)
Definition readable (K : crypto) (r : raw_cert) (c : cert) : Prop :=
  (exists f, good_format (rw_format r) f /\ ac_import K (InArray (rw_data r)) f false = Ok c) /\ verified K c.

(** Why a certificate is refused: the record, to which the address is added, and what the client is told. *)
Inductive bad_cert (K : crypto) (rows : list aauth_row) (now : Z) (r : raw_cert) : str -> str -> Prop :=
| bc_version : rw_version r <> 1 -> 0 <= rw_format r <= 4 ->
    bad_cert K rows now r (lit "ClientFault: Invalid ac version in request from ")
      (lit "Unsupported attribute certificate version in certificate set.")
| bc_format : rw_version r = 1 -> 1 <= rw_format r <= 2 ->
    bad_cert K rows now r (lit "ClientFault: Invalid ac format in request from ")
      (lit "Unsupported attribute certificate format in certificate set.")
| bc_read : rw_version r = 1 -> In (rw_format r) [0; 3; 4] -> (forall c, ~ readable K r c) ->
    bad_cert K rows now r (lit "ClientFault: Could not verify ac in request from ")
      (lit "Could to verify signature of attribute certificate in certificate set.")
| bc_trust : forall c, rw_version r = 1 -> readable K r c -> ~ trusted rows (is_uid (c_issuer c)) ->
    bad_cert K rows now r (lit "ClientFault: aauth in ac is not trusted in request from ")
      (lit "An attribute authority in an attribute certificate in your certificate set is not trusted.")
| bc_time : forall c, rw_version r = 1 -> readable K r c -> trusted rows (is_uid (c_issuer c)) ->
    ~ (rv_after (c_rev c) < now < rv_before (c_rev c)) ->
    bad_cert K rows now r (lit "ClientFault: ac is expired in evaluate from ")
      (lit "An attribute certificate in your certificate set is expired.").

(** A certificate that is accepted and whose serial is free or has the same hash. *)
Definition passes (K : crypto) (d : pdb) (now : Z) (r : raw_cert) : Prop :=
  exists c, accepted K (d_aauths d) r now c /\
    forall row, In row (d_certs d) -> cr_serial row = serial_text c -> cr_hash row = hash_of K r.

(** The faults of start_session with their record: those of the first certificate that does not pass. *)
Inductive not_started (K : crypto) (d : pdb) (now : nat -> Z) (addr : str) : option (option (list raw_cert)) -> str -> str -> Prop :=
| ns_none : forall set, set = None \/ set = Some None \/ set = Some (Some []) ->
    not_started K d now addr set (lit "ClientFault: No att cert set in start_session request from " ++ addr)
      (lit "Need attribute certificate set to start session.")
| ns_cert : forall l1 r l2 log t,
    (forall i x, nth_error l1 i = Some x -> passes K d (now (S i)) x) ->
    bad_cert K (d_aauths d) (now (S (List.length l1))) r log t ->
    not_started K d now addr (Some (Some (l1 ++ r :: l2))) (log ++ addr) t
| ns_serial : forall l1 r l2 c row,
    (forall i x, nth_error l1 i = Some x -> passes K d (now (S i)) x) ->
    accepted K (d_aauths d) r (now (S (List.length l1))) c ->
    In row (d_certs d) -> cr_serial row = serial_text c -> cr_hash row <> hash_of K r ->
    not_started K d now addr (Some (Some (l1 ++ r :: l2)))
      (lit "ClientFault: Cert with serial " ++ serial_text c ++ lit " in request from " ++ addr ++
       lit " is already in database but hash does not match!")
      (lit "Certificate serial already in use.").

(** ** evaluate *)

(** What the client is told of a policy that is not accepted. *)
Definition told (m : str) (p : Z) (x : str) : str := m ++ lit " @ char " ++ str_of_Z p ++ lit " near '" ++ x ++ lit "'".
Inductive complaint (U : unicode) (other : exc -> str) (text : str) : str -> Prop :=
| co_lexer : forall ts q ws s t r m p x, reads U 0 text ts q (ws ++ s) -> Forall (space U) ws -> fault U (q + len ws) s m p t r ->
    excerpt text p 10 x -> complaint U other text (told m p x)
| co_python : forall ts q ws s r y, reads U 0 text ts q (ws ++ s) -> Forall (space U) ws -> crash U s y r ->
    complaint U other text (other y)
| co_parser : forall ts u t k x rule, lex_text U text = Ok ts -> culprit ts u t -> waits u k ->
    excerpt text (t_pos t) 10 x -> In (rule_of k, rule) rule_names ->
    complaint U other text (told (wording k (type_name (t_type t)) (t_pos t)) (t_pos t) x ++ lit " while parsing " ++ rule ++ lit " rule.")
| co_ends : forall s u e, lex_text U text = Ok (s :: u ++ [e]) -> t_type e = END -> pre_policy u -> complaint U other text (other EIndex)
| co_types : forall a n i m xs x, parse_text U text (-1) = Ok (a, n) -> remarks U [] (comparisons (erase a)) ((i, m) :: xs) ->
    excerpt text (is_pos i) 10 x -> complaint U other text (told m (is_pos i) x).

(** The faults of evaluate with their record. *)
Inductive not_evaluated (U : unicode) (other : exc -> str) (same_id : str -> Z -> bool) (d : pdb) (sid : Z) (addr : str) (p : pair_obj) : str -> str -> Prop :=
| ne_none : pr_uid p = Has None -> pr_string p = Has None ->
    not_evaluated U other same_id d sid addr p (lit "ClientFault: Need to give policy uid or policy string in evaluate request from " ++ addr)
      (lit "Need to give policy uid or policy string.")
| ne_uid : forall u, pr_uid p = Has (Some u) -> d_sessions d = [] \/ ~ In u (map po_uid (d_policies d)) ->
    not_evaluated U other same_id d sid addr p (lit "ClientFault: Unknown policy uid in evaluate request from " ++ addr) (lit "Unknown policy uid.")
| ne_policy : forall s m, pr_uid p = Has None -> pr_string p = Has (Some s) -> complaint U other s m ->
    not_evaluated U other same_id d sid addr p
      (lit "ClientFault: Invalid policy in evaluate request from " ++ addr ++ lit ", error is " ++ m) (lit "Invalid policy: " ++ m)
| ne_att : forall s l, pr_uid p = Has None -> pr_string p = Has (Some s) -> (forall m, ~ complaint U other s m) ->
    pr_atts p = Has (Some l) -> In (ObjAtt None None) l ->
    not_evaluated U other same_id d sid addr p (lit "ClientFault: Attribute without name or uid in evaluate request from " ++ addr)
      (lit "Attribute without name or uid, need one or the other.")
| ne_session : forall s atts, pr_uid p = Has None -> pr_string p = Has (Some s) -> (forall m, ~ complaint U other s m) ->
    pr_atts p = Has atts -> (forall l, atts = Some l -> ~ In (ObjAtt None None) l) ->
    (forall x, In x (d_sessions d) -> same_id (se_id x) sid = false) ->
    not_evaluated U other same_id d sid addr p (lit "ClientFault: Unknown session_id in evaluate request from " ++ addr) (lit "Unknown session_id.").
