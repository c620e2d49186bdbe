(** * CoverSpec: which certificates can arrive, and which have the same signed bytes
    (independent of encoder and decoder, but for UTF-8) *)

From Coq Require Import NArith ZArith List Bool.
From Verif Require Import PyBase Struct AttCert CertSpec.
Import ListNotations.
Open Scope Z_scope.

(** ** Certificates that can arrive *)

(** A text whose UTF-8 has at most 65535 bytes. *)
Definition sendable (s : str) : Prop := exists b, utf8_encode s = Ok b /\ small b.
Definition piece (b : bytes) : Prop := octets b /\ small b.
(** Optional parts are absent or not empty. *)
Definition opt_sendable : option str -> Prop := if_some (fun s => s <> [] /\ sendable s).
Definition opt_piece : option bytes -> Prop := if_some (fun b => b <> [] /\ piece b).

Definition issuer_sendable (i : ac_issuer) : Prop :=
  piece (is_key i) /\ sendable (is_algo i) /\ sendable (is_uid i) /\ opt_sendable (is_name i) /\ opt_sendable (is_url i).
Definition holder_sendable (i : ac_holder) : Prop :=
  piece (ho_key i) /\ sendable (ho_algo i) /\ sendable (ho_uid i) /\ opt_sendable (ho_name i).
(** Serial numbers may have 255 bytes. *)
Definition info_sendable (i : ac_info) : Prop :=
  0 <= i_version i <= 255 /\ 0 <= i_serial i < 2 ^ 2040 /\ time_fits (i_issued i).
Definition att_sendable (a : ac_att) : Prop :=
  sendable (at_id a) /\ opt_sendable (at_value a) /\ opt_sendable (at_name a) /\ opt_piece (at_extra a).
Definition rev_sendable (r : ac_rev) : Prop :=
  time_fits (rv_after r) /\ time_fits (rv_before r) /\ opt_sendable (rv_url r) /\ opt_piece (rv_extra r).
Definition ext_sendable (x : ac_ext) : Prop := sendable (ex_id x) /\ opt_piece (ex_extra x).
(** At the end of the bytes a text or value that was announced may be missing. *)
Definition sig_sendable (s : ac_sig) : Prop :=
  if_some sendable (sg_algo s) /\ if_some piece (sg_value s) /\
  (sg_algo s = Some [] -> sg_value s = None \/ sg_value s = Some []) /\ (sg_algo s <> None \/ sg_value s <> None).
Definition cert_sendable (c : cert) : Prop :=
  issuer_sendable (c_issuer c) /\ holder_sendable (c_holder c) /\ info_sendable (c_info c) /\
  (exists l, c_atts c = Some l /\ small l /\ Forall att_sendable l) /\
  rev_sendable (c_rev c) /\ if_some (fun d => exists x, de_extra d = Some x /\ x <> [] /\ piece x) (c_del c) /\
  if_some (fun l => l <> [] /\ small l /\ Forall ext_sendable l) (c_exts c) /\ if_some sig_sendable (c_sig c).

(** ** Certificates with the same signed bytes *)

(** Texts of the same number n of characters whose UTF-8 has the same first n bytes. *)
Definition text_alike (s t : str) : Prop :=
  List.length s = List.length t /\
  exists b b', utf8_encode s = Ok b /\ utf8_encode t = Ok b' /\ firstn (List.length s) b = firstn (List.length s) b'.
(** Absent is as empty. *)
Definition content {A} (o : option (list A)) : list A := match o with Some l => l | None => [] end.
Definition issuer_alike (i j : ac_issuer) : Prop :=
  is_key i = is_key j /\ text_alike (is_algo i) (is_algo j) /\ text_alike (is_uid i) (is_uid j) /\
  text_alike (content (is_name i)) (content (is_name j)) /\ text_alike (content (is_url i)) (content (is_url j)).
Definition holder_alike (i j : ac_holder) : Prop :=
  ho_key i = ho_key j /\ text_alike (ho_algo i) (ho_algo j) /\ text_alike (ho_uid i) (ho_uid j) /\
  text_alike (content (ho_name i)) (content (ho_name j)).
Definition att_alike (a b : ac_att) : Prop :=
  text_alike (at_id a) (at_id b) /\ at_type a = at_type b /\ text_alike (content (at_value a)) (content (at_value b)) /\
  text_alike (content (at_name a)) (content (at_name b)) /\ content (at_extra a) = content (at_extra b).
Definition rev_alike (r s : ac_rev) : Prop :=
  rv_after r = rv_after s /\ rv_before r = rv_before s /\ text_alike (content (rv_url r)) (content (rv_url s)) /\
  content (rv_extra r) = content (rv_extra s).
Definition ext_alike (x y : ac_ext) : Prop :=
  text_alike (ex_id x) (ex_id y) /\ content (ex_extra x) = content (ex_extra y).
Definition del_bytes (o : option ac_del) : bytes := match o with Some d => content (de_extra d) | None => [] end.
Definition alike (c d : cert) : Prop :=
  issuer_alike (c_issuer c) (c_issuer d) /\ holder_alike (c_holder c) (c_holder d) /\ c_info c = c_info d /\
  Forall2 att_alike (content (c_atts c)) (content (c_atts d)) /\ rev_alike (c_rev c) (c_rev d) /\
  del_bytes (c_del c) = del_bytes (c_del d) /\ Forall2 ext_alike (content (c_exts c)) (content (c_exts d)).
