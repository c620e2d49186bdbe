(** * CertSpec: what certificates are made of and what their encoding can carry
    (independent of the encoder) *)

From Coq Require Import NArith ZArith List Bool Permutation.
From Verif Require Import PyBase AttCert.
Import ListNotations.
Open Scope Z_scope.

(** ** When a certificate can be encoded *)

(** A character that UTF-8 can encode. *)
Definition encodable (c : N) : Prop := (c < 55296 \/ 57343 < c)%N /\ (c < 1114112)%N.
Definition small {A} (l : list A) : Prop := Z.of_nat (List.length l) <= 65535.
Definition if_some {A} (P : A -> Prop) (o : option A) : Prop := match o with Some x => P x | None => True end.
Definition text_fits (s : str) : Prop := small s /\ Forall encodable s.
Definition time_fits (t : Z) : Prop := 0 <= t < 2 ^ 32.

Definition info_fits (i : ac_info) : Prop :=
  0 <= i_version i <= 255 /\ 0 <= i_serial i < 2 ^ 160 /\ time_fits (i_issued i).
Definition issuer_fits (i : ac_issuer) : Prop :=
  small (is_key i) /\ text_fits (is_algo i) /\ text_fits (is_uid i) /\
  if_some text_fits (is_name i) /\ if_some text_fits (is_url i).
Definition holder_fits (i : ac_holder) : Prop :=
  small (ho_key i) /\ text_fits (ho_algo i) /\ text_fits (ho_uid i) /\ if_some text_fits (ho_name i).
Definition att_fits (a : ac_att) : Prop :=
  text_fits (at_id a) /\ if_some text_fits (at_value a) /\ if_some text_fits (at_name a) /\ if_some small (at_extra a).
Definition rev_fits (r : ac_rev) : Prop :=
  time_fits (rv_after r) /\ time_fits (rv_before r) /\ if_some text_fits (rv_url r) /\ if_some small (rv_extra r).
Definition del_fits (d : ac_del) : Prop := if_some small (de_extra d).
Definition ext_fits (x : ac_ext) : Prop := text_fits (ex_id x) /\ if_some small (ex_extra x).
Definition sig_fits (s : ac_sig) : Prop :=
  exists a v, s = Sig (Some a) (Some v) /\ text_fits a /\ small v.
Definition body_fits (c : cert) : Prop :=
  issuer_fits (c_issuer c) /\ holder_fits (c_holder c) /\ info_fits (c_info c) /\
  rev_fits (c_rev c) /\ if_some del_fits (c_del c) /\
  if_some (fun l => small l /\ Forall att_fits l) (c_atts c) /\
  if_some (fun l => small l /\ Forall ext_fits l) (c_exts c).

(** ** What survives encoding and decoding *)

Definition ascii (s : str) : Prop := Forall (fun c => (c < 128)%N) s.
(** An optional text that is there is neither empty nor outside ASCII. *)
Definition text_kept (s : str) : Prop := s <> [] /\ ascii s.
Definition bytes_kept (b : bytes) : Prop := b <> [].

Definition issuer_kept (i : ac_issuer) : Prop :=
  ascii (is_algo i) /\ ascii (is_uid i) /\ if_some text_kept (is_name i) /\ if_some text_kept (is_url i).
Definition holder_kept (i : ac_holder) : Prop :=
  ascii (ho_algo i) /\ ascii (ho_uid i) /\ if_some text_kept (ho_name i).
Definition att_kept (a : ac_att) : Prop :=
  ascii (at_id a) /\ if_some text_kept (at_value a) /\ if_some text_kept (at_name a) /\ if_some bytes_kept (at_extra a).
Definition rev_kept (r : ac_rev) : Prop := if_some text_kept (rv_url r) /\ if_some bytes_kept (rv_extra r).
Definition del_kept (d : ac_del) : Prop := if_some bytes_kept (de_extra d).
Definition ext_kept (x : ac_ext) : Prop := ascii (ex_id x) /\ if_some bytes_kept (ex_extra x).
Definition sig_kept (s : ac_sig) : Prop := if_some text_kept (sg_algo s) /\ if_some bytes_kept (sg_value s).
(** Besides: the attribute set is a list, the other optional parts are absent or say something. *)
Definition body_kept (c : cert) : Prop :=
  issuer_kept (c_issuer c) /\ holder_kept (c_holder c) /\ rev_kept (c_rev c) /\
  if_some (fun d => exists x, de_extra d = Some x /\ x <> []) (c_del c) /\
  (exists l, c_atts c = Some l /\ Forall att_kept l) /\
  if_some (fun l => l <> [] /\ Forall ext_kept l) (c_exts c).

(** Only ASCII text. *)
Definition opt_ascii : option str -> Prop := if_some ascii.
Definition body_ascii (c : cert) : Prop :=
  ascii (is_algo (c_issuer c)) /\ ascii (is_uid (c_issuer c)) /\
  opt_ascii (is_name (c_issuer c)) /\ opt_ascii (is_url (c_issuer c)) /\
  ascii (ho_algo (c_holder c)) /\ ascii (ho_uid (c_holder c)) /\ opt_ascii (ho_name (c_holder c)) /\
  opt_ascii (rv_url (c_rev c)) /\
  if_some (Forall (fun a => ascii (at_id a) /\ opt_ascii (at_value a) /\ opt_ascii (at_name a))) (c_atts c) /\
  if_some (Forall (fun x => ascii (ex_id x))) (c_exts c).

(** Byte strings hold bytes. *)
Definition octets (b : bytes) : Prop := Forall (fun x => (x < 256)%N) b.
Definition cert_octets (c : cert) : Prop :=
  octets (is_key (c_issuer c)) /\ octets (ho_key (c_holder c)) /\ if_some octets (rv_extra (c_rev c)) /\
  if_some (fun d => if_some octets (de_extra d)) (c_del c) /\
  if_some (Forall (fun a => if_some octets (at_extra a))) (c_atts c) /\
  if_some (Forall (fun x => if_some octets (ex_extra x))) (c_exts c) /\
  if_some (fun s => if_some octets (sg_value s)) (c_sig c).

(** ** Equal content *)

(** Everything but the signature. *)
Definition same_content (a b : cert) : Prop :=
  c_issuer a = c_issuer b /\ c_holder a = c_holder b /\ c_info a = c_info b /\ c_atts a = c_atts b /\
  c_rev a = c_rev b /\ c_del a = c_del b /\ c_exts a = c_exts b.

(** Empty and absent optional parts are the same on the wire: the form with absent ones.
    (The attribute set is the exception: a decoded one is always a list.) *)
Definition absent {A} (o : option (list A)) : option (list A) := match o with Some [] => None | o => o end.
Definition normal (c : cert) : cert :=
  let 'Cert is ho inf atts rv de exts _ := c in
  Cert (Issuer (is_key is) (is_algo is) (is_uid is) (absent (is_name is)) (absent (is_url is)))
       (Holder (ho_key ho) (ho_algo ho) (ho_uid ho) (absent (ho_name ho)))
       inf
       (Some (map (fun a => Att (at_id a) (at_type a) (absent (at_value a)) (absent (at_name a)) (absent (at_extra a)))
                  (match atts with Some l => l | None => [] end)))
       (Rev (rv_after rv) (rv_before rv) (absent (rv_url rv)) (absent (rv_extra rv)))
       (match de with Some (Del (Some (x :: l))) => Some (Del (Some (x :: l))) | _ => None end)
       (absent (option_map (map (fun x => Ext (ex_id x) (absent (ex_extra x)))) exts))
       None.

(** ** What == means for certificates with distinct ids *)

(** Delegation rules without extra bytes count as absent, and so does an empty signature. *)
Definition del_content (o : option ac_del) : option bytes := match o with Some d => de_extra d | None => None end.
Definition sig_content (o : option ac_sig) : option str * option bytes :=
  match o with Some s => (sg_algo s, sg_value s) | None => (None, None) end.
(** The same entries in any order; absent sets only equal absent sets. *)
Definition same_set {A} (a b : option (list A)) : Prop :=
  match a, b with
  | None, None => True
  | Some l, Some m => Permutation l m
  | _, _ => False
  end.
Definition equivalent (a b : cert) : Prop :=
  is_key (c_issuer a) = is_key (c_issuer b) /\ is_algo (c_issuer a) = is_algo (c_issuer b) /\
  is_uid (c_issuer a) = is_uid (c_issuer b) /\ is_url (c_issuer a) = is_url (c_issuer b) /\
  ho_key (c_holder a) = ho_key (c_holder b) /\ ho_algo (c_holder a) = ho_algo (c_holder b) /\
  ho_uid (c_holder a) = ho_uid (c_holder b) /\
  c_info a = c_info b /\ c_rev a = c_rev b /\
  del_content (c_del a) = del_content (c_del b) /\ sig_content (c_sig a) = sig_content (c_sig b) /\
  same_set (c_atts a) (c_atts b) /\ same_set (c_exts a) (c_exts b).
Definition distinct_ids (c : cert) : Prop :=
  if_some (fun l => NoDup (map at_id l)) (c_atts c) /\ if_some (fun l => NoDup (map ex_id l)) (c_exts c).
