(** * PAuthSpec: what a policy authority may accept and what a session is (independent of
    the service's code) *)

From Coq Require Import NArith ZArith List Bool.
From Verif Require Import PyBase Struct AttCert CertSpec CertProps2 PAuth.
Import ListNotations.
Open Scope Z_scope.

(** The authority with this uid has a positive trust level. *)
Definition trusted (rows : list aauth_row) (uid : str) : Prop :=
  exists a, In a rows /\ aa_uid a = uid /\ aa_trust a > 0.

(** The formats that can be accepted: BYTES (0) and BASE64 (3). *)
Inductive good_format : Z -> xformat -> Prop :=
| gf_bytes : good_format 0 FBytes
| gf_base64 : good_format 3 FBase64.

(** A certificate that the authority accepts at time [now]: readable, correctly signed under
    the key it contains, by a trusted issuer, and within its lifetime. *)
Definition accepted (K : crypto) (rows : list aauth_row) (r : raw_cert) (now : Z) (c : cert) : Prop :=
  rw_version r = 1 /\
  (exists f, good_format (rw_format r) f /\ ac_import K (InArray (rw_data r)) f false = Ok c) /\
  verified K c /\
  trusted rows (is_uid (c_issuer c)) /\
  rv_after (c_rev c) < now < rv_before (c_rev c).

(** Certificates with their times of checking. *)
Definition timed (now : nat -> Z) (l : list raw_cert) : list (raw_cert * Z) :=
  combine l (map (fun i => now (S i)) (seq 0 (List.length l))).

(** How serials and session ids are written: base64 of 20 bytes, lowest first. *)
Definition id_text (n : Z) : str := b64encode (le_bytes 20 (Z.to_N n)).
Definition serial_text (c : cert) : str := id_text (i_serial (c_info c)).

(** The hash stored for a certificate. *)
Definition hash_of (K : crypto) (r : raw_cert) : str :=
  b64encode (k_hash K (if rw_format r =? 0 then [] else rw_data r)).
Definition row_of (K : crypto) (r : raw_cert) (c : cert) : cert_row :=
  CertRow (serial_text c) (rw_data r) (rw_format r) (rw_version r) (rv_before (c_rev c)) (hash_of K r).
Definition stored (d : pdb) (s : str) : Prop := In s (map cr_serial (d_certs d)).
Definition storedb (d : pdb) (s : str) : bool := existsb (str_eqb s) (map cr_serial (d_certs d)).
Definition new_rows (K : crypto) (d : pdb) (l : list raw_cert) (cs : list cert) : list cert_row :=
  filter (fun r => negb (storedb d (cr_serial r))) (map (fun p => row_of K (fst p) (snd p)) (combine l cs)).

(** The smallest and the largest number of a list (0 of an empty one). *)
Fixpoint least (l : list Z) : Z := match l with [] => 0 | [x] => x | x :: r => Z.min x (least r) end.
Fixpoint greatest (l : list Z) : Z := match l with [] => 0 | [x] => x | x :: r => Z.max x (greatest r) end.
Definition ends (cs : list cert) : list Z := map (fun c => rv_before (c_rev c)) cs.
Definition issues (cs : list cert) : list Z := map (fun c => i_issued (c_info c)) cs.

Definition session_of (cs : list cert) (uid : str) (sid : Z) (start : Z) (ip : str) : sess_row :=
  Sess (id_text sid) (greatest (issues cs)) (least (ends cs)) start ip uid (Z.min (start + 86400) (least (ends cs))).

(** A successful request: all certificates accepted, no stored certificate with the same
    serial and another hash, all serials different, an unused session id. *)
Record started (K : crypto) (d : pdb) (service : option str) (l : list raw_cert) (sid : Z) (now : nat -> Z)
    (ip : str) (cs : list cert) (d' : pdb) (ret : session_ret) : Prop := {
  st_some : l <> [];
  st_accepted : Forall2 (fun p c => accepted K (d_aauths d) (fst p) (snd p) c) (timed now l) cs;
  st_hash : Forall2 (fun r c => forall row, In row (d_certs d) -> cr_serial row = serial_text c ->
                                            cr_hash row = hash_of K r) l cs;
  st_serials : NoDup (map (fun c => i_serial (c_info c)) cs);
  st_fresh : ~ In (id_text sid) (map se_id (d_sessions d));
  st_links : forall c, In c cs -> ~ In (Link (serial_text c) (id_text sid)) (d_links d);
  st_service : exists uid, service = Some uid /\
    d' = PDB (d_aauths d) (d_policies d) (d_certs d ++ new_rows K d l cs)
             (d_links d ++ map (fun c => Link (serial_text c) (id_text sid)) cs)
             (d_sessions d ++ [session_of cs uid sid (now O) ip]);
  st_ret : ret = SessionRet sid (Z.min (now O + 86400) (least (ends cs))) (now O)
}.

(** Primary keys are unique. *)
Definition keys_ok (d : pdb) : Prop :=
  NoDup (map aa_uid (d_aauths d)) /\ NoDup (map cr_serial (d_certs d)) /\ NoDup (d_links d) /\
  NoDup (map se_id (d_sessions d)).
Definition sid_ok (sid : Z) : Prop := 0 <= sid < 2 ^ 160.
