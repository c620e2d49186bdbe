(** * AttCert: model of hgaa/attcert.py

    Field types are those the constructors document (str, byte strings, int); a field that
    may be None is an option.  bytes and bytearray are both [bytes] (Python compares them by
    content).  A decoder consumes a prefix of a bytearray: it returns what is left, and
    nothing is said about the bytearray after an exception. *)

From Coq Require Import NArith ZArith List Bool String.
From Verif Require Import PyBase Struct.
Import ListNotations.
Open Scope Z_scope.

(** hgaa/attcert.py 12-18, AttributeType. *)
Inductive atype : Type := ANull | AInt | AFloat | AString | ABool | ASet.
Definition atype_val (t : atype) : Z :=
  match t with ANull => 0 | AInt => 1 | AFloat => 2 | AString => 3 | ABool => 4 | ASet => 5 end.
(** [AttributeType(v)]: ValueError for another number. *)
Definition atype_of (v : Z) : res atype :=
  match find (fun t => atype_val t =? v) [ANull; AInt; AFloat; AString; ABool; ASet] with
  | Some t => Ok t
  | None => Err EValue
  end.
Definition atype_eqb (a b : atype) : bool := atype_val a =? atype_val b.

Definition opt_eqb {A} (e : A -> A -> bool) (a b : option A) : bool :=
  match a, b with
  | None, None => true
  | Some x, Some y => e x y
  | _, _ => false
  end.
Definition bytes_eqb : bytes -> bytes -> bool := leqb N.eqb.

(** [len(x) if x is not None else 0] together with [x.encode() if .. else b'']: an absent
    field is written like an empty one. *)
Definition or_empty (o : option (list N)) : list N := match o with Some s => s | None => [] end.
Definition len {A} (l : list A) : Z := Z.of_nat (List.length l).
(** [struct.pack(str(len(s)) + 's', s.encode('utf-8'))]: the size is the number of
    characters, not of bytes. *)
Definition pack_text (s : str) (b : bytes) : bytes := pack_s (List.length s) b.
(** [x.decode('utf-8') if x != b'' else None]. *)
Definition opt_text (b : bytes) : res (option str) :=
  match b with [] => Ok None | _ => s <- utf8_decode b ;; Ok (Some s) end.
(** A slice at the front: shorter when there are not enough bytes. *)
Definition cut (n : Z) (b : bytes) : bytes * bytes := (firstn (Z.to_nat n) b, skipn (Z.to_nat n) b).

(** ** Sections *)

(** hgaa/attcert.py 32-46.  Random serial and clock are arguments of the callers. *)
Record ac_info : Type := Info { i_version : Z; i_serial : Z; i_issued : Z }.
(** hgaa/attcert.py 33 *)
Definition serial_bytes : nat := 20.
(** hgaa/attcert.py 57-62 *)
Definition info_encode (i : ac_info) : res bytes :=
  v <- pack_u 1 (i_version i) ;; l <- pack_u 1 (Z.of_nat serial_bytes) ;;
  s <- (if (0 <=? i_serial i) && (i_serial i <? 256 ^ Z.of_nat serial_bytes)
        then Ok (le_bytes serial_bytes (Z.to_N (i_serial i))) else Err EOverflow) ;;
  t <- pack_u 4 (i_issued i) ;;
  Ok (v ++ l ++ s ++ t).
(** hgaa/attcert.py 65-74: any serial size is accepted. *)
Definition info_decode (b : bytes) : res (ac_info * bytes) :=
  '(h, b) <- take 2 b ;;
  '(v, h) <- get_u 1 h ;; '(l, _) <- get_u 1 h ;;
  let '(s, b) := cut l b in
  '(t, b) <- get_u 4 b ;;
  Ok (Info v (Z.of_N (le_val s)) t, b).
(** hgaa/attcert.py 76-78 *)
Definition info_eqb (a b : ac_info) : bool :=
  (i_version a =? i_version b) && (i_serial a =? i_serial b) && (i_issued a =? i_issued b).

(** hgaa/attcert.py 81-87 *)
Record ac_issuer : Type := Issuer {
  is_key : bytes; is_algo : str; is_uid : str; is_name : option str; is_url : option str }.
(** hgaa/attcert.py 101-127 *)
Definition issuer_encode (i : ac_issuer) : res bytes :=
  let name := or_empty (is_name i) in
  let url := or_empty (is_url i) in
  h1 <- pack_u 2 (len (is_key i)) ;; h2 <- pack_u 2 (len (is_algo i)) ;; h3 <- pack_u 2 (len (is_uid i)) ;;
  h4 <- pack_u 2 (len name) ;; h5 <- pack_u 2 (len url) ;;
  a <- utf8_encode (is_algo i) ;; u <- utf8_encode (is_uid i) ;; n <- utf8_encode name ;; l <- utf8_encode url ;;
  Ok (h1 ++ h2 ++ h3 ++ h4 ++ h5 ++ is_key i ++
      pack_text (is_algo i) a ++ pack_text (is_uid i) u ++ pack_text name n ++ pack_text url l).
(** hgaa/attcert.py 130-144: the key is a slice, the strings one struct.unpack. *)
Definition issuer_decode (b : bytes) : res (ac_issuer * bytes) :=
  '(h, b) <- take 10 b ;;
  '(k, h) <- get_u 2 h ;; '(a, h) <- get_u 2 h ;; '(u, h) <- get_u 2 h ;; '(n, h) <- get_u 2 h ;; '(l, _) <- get_u 2 h ;;
  let '(key, b) := cut k b in
  '(a, b) <- take (Z.to_nat a) b ;; '(u, b) <- take (Z.to_nat u) b ;;
  '(n, b) <- take (Z.to_nat n) b ;; '(l, b) <- take (Z.to_nat l) b ;;
  algo <- utf8_decode a ;; uid <- utf8_decode u ;; url <- opt_text l ;; name <- opt_text n ;;
  Ok (Issuer key algo uid name url, b).
(** hgaa/attcert.py 146-148: the name is not compared. *)
Definition issuer_eqb (a b : ac_issuer) : bool :=
  bytes_eqb (is_key a) (is_key b) && str_eqb (is_algo a) (is_algo b) && str_eqb (is_uid a) (is_uid b) &&
  opt_eqb str_eqb (is_url a) (is_url b).

(** hgaa/attcert.py 151-156 *)
Record ac_holder : Type := Holder { ho_key : bytes; ho_algo : str; ho_uid : str; ho_name : option str }.
(** hgaa/attcert.py 167-187 *)
Definition holder_encode (i : ac_holder) : res bytes :=
  let name := or_empty (ho_name i) in
  h1 <- pack_u 2 (len (ho_key i)) ;; h2 <- pack_u 2 (len (ho_algo i)) ;; h3 <- pack_u 2 (len (ho_uid i)) ;;
  h4 <- pack_u 2 (len name) ;;
  a <- utf8_encode (ho_algo i) ;; u <- utf8_encode (ho_uid i) ;; n <- utf8_encode name ;;
  Ok (h1 ++ h2 ++ h3 ++ h4 ++ ho_key i ++
      pack_text (ho_algo i) a ++ pack_text (ho_uid i) u ++ pack_text name n).
(** hgaa/attcert.py 190-203 *)
Definition holder_decode (b : bytes) : res (ac_holder * bytes) :=
  '(h, b) <- take 8 b ;;
  '(k, h) <- get_u 2 h ;; '(a, h) <- get_u 2 h ;; '(u, h) <- get_u 2 h ;; '(n, _) <- get_u 2 h ;;
  let '(key, b) := cut k b in
  '(a, b) <- take (Z.to_nat a) b ;; '(u, b) <- take (Z.to_nat u) b ;; '(n, b) <- take (Z.to_nat n) b ;;
  algo <- utf8_decode a ;; uid <- utf8_decode u ;; name <- opt_text n ;;
  Ok (Holder key algo uid name, b).
(** hgaa/attcert.py 205-207 *)
Definition holder_eqb (a b : ac_holder) : bool :=
  bytes_eqb (ho_key a) (ho_key b) && str_eqb (ho_algo a) (ho_algo b) && str_eqb (ho_uid a) (ho_uid b).

(** hgaa/attcert.py 210-216 *)
Record ac_att : Type := Att {
  at_id : str; at_type : atype; at_value : option str; at_name : option str; at_extra : option bytes }.
(** hgaa/attcert.py 211-216, the constructor: empty value and name become None. *)
Definition non_empty (o : option str) : option str := match o with Some [] => None | o => o end.
Definition make_att (id : str) (t : atype) (v n : option str) (x : option bytes) : ac_att :=
  Att id t (non_empty v) (non_empty n) x.
(** hgaa/attcert.py 234-250 *)
Definition att_encode (a : ac_att) : res bytes :=
  let value := or_empty (at_value a) in
  let name := or_empty (at_name a) in
  let extra := or_empty (at_extra a) in
  i <- utf8_encode (at_id a) ;; v <- utf8_encode value ;; n <- utf8_encode name ;;
  h1 <- pack_u 2 (len (at_id a)) ;; h2 <- pack_u 2 (len value) ;; h3 <- pack_u 2 (len name) ;;
  h4 <- pack_u 2 (len extra) ;; h5 <- pack_u 1 (atype_val (at_type a)) ;;
  Ok (h1 ++ h2 ++ h3 ++ h4 ++ h5 ++
      pack_text (at_id a) i ++ pack_text value v ++ pack_text name n ++ extra).
(** [None] for size 0, otherwise a slice (hgaa/attcert.py 265-268, 331-334, 409-412). *)
Definition opt_cut (n : Z) (b : bytes) : option bytes * bytes :=
  let '(x, b) := cut n b in (if n =? 0 then None else Some x, b).
(** hgaa/attcert.py 253-272 *)
Definition att_decode (b : bytes) : res (ac_att * bytes) :=
  '(h, b) <- take 9 b ;;
  '(i, h) <- get_u 2 h ;; '(v, h) <- get_u 2 h ;; '(n, h) <- get_u 2 h ;; '(x, h) <- get_u 2 h ;; '(t, _) <- get_u 1 h ;;
  ty <- atype_of t ;;
  '(i, b) <- take (Z.to_nat i) b ;; '(v, b) <- take (Z.to_nat v) b ;; '(n, b) <- take (Z.to_nat n) b ;;
  id <- utf8_decode i ;; value <- opt_text v ;; name <- opt_text n ;;
  let '(extra, b) := opt_cut x b in
  Ok (Att id ty value name extra, b).
(** hgaa/attcert.py 274-277 *)
Definition att_eqb (a b : ac_att) : bool :=
  str_eqb (at_id a) (at_id b) && opt_eqb str_eqb (at_name a) (at_name b) && atype_eqb (at_type a) (at_type b) &&
  opt_eqb str_eqb (at_value a) (at_value b) && opt_eqb bytes_eqb (at_extra a) (at_extra b).

(** hgaa/attcert.py 280-295; the default times are given by the callers. *)
Record ac_rev : Type := Rev { rv_after : Z; rv_before : Z; rv_url : option str; rv_extra : option bytes }.
(** hgaa/attcert.py 281, 283-295, the constructor with the time [now] read from the clock. *)
Definition default_length : Z := 86400.
Definition make_rev (now : Z) (after before : option Z) (url : option str) (x : option bytes) : ac_rev :=
  Rev (match after with Some t => t | None => now end)
      (match before with Some t => t | None => now + default_length end) url x.
(** hgaa/attcert.py 309-321 *)
Definition rev_encode (r : ac_rev) : res bytes :=
  let url := or_empty (rv_url r) in
  let extra := or_empty (rv_extra r) in
  u <- utf8_encode url ;;
  h1 <- pack_u 2 (len url) ;; h2 <- pack_u 2 (len extra) ;;
  h3 <- pack_u 4 (rv_after r) ;; h4 <- pack_u 4 (rv_before r) ;;
  Ok (h1 ++ h2 ++ h3 ++ h4 ++ pack_text url u ++ extra).
(** hgaa/attcert.py 324-338: url and extra bytes are slices. *)
Definition rev_decode (b : bytes) : res (ac_rev * bytes) :=
  '(h, b) <- take 12 b ;;
  '(l, h) <- get_u 2 h ;; '(x, h) <- get_u 2 h ;; '(va, h) <- get_u 4 h ;; '(vb, _) <- get_u 4 h ;;
  let '(u, b) := cut l b in
  url <- (if l =? 0 then Ok None else s <- utf8_decode u ;; Ok (Some s)) ;;
  let '(extra, b) := opt_cut x b in
  Ok (Rev va vb url extra, b).
(** hgaa/attcert.py 340-342 *)
Definition rev_eqb (a b : ac_rev) : bool :=
  (rv_before a =? rv_before b) && (rv_after a =? rv_after b) && opt_eqb str_eqb (rv_url a) (rv_url b) &&
  opt_eqb bytes_eqb (rv_extra a) (rv_extra b).

(** hgaa/attcert.py 345-347 *)
Record ac_del : Type := Del { de_extra : option bytes }.
(** hgaa/attcert.py 358-361 *)
Definition del_encode (d : ac_del) : res bytes :=
  h <- pack_u 2 (len (or_empty (de_extra d))) ;; Ok (h ++ or_empty (de_extra d)).
(** hgaa/attcert.py 364-370 *)
Definition del_decode (b : bytes) : res (ac_del * bytes) :=
  '(n, b) <- get_u 2 b ;; let '(x, b) := opt_cut n b in Ok (Del x, b).
(** hgaa/attcert.py 372-373 *)
Definition del_eqb (a b : ac_del) : bool := opt_eqb bytes_eqb (de_extra a) (de_extra b).

(** hgaa/attcert.py 376-379 *)
Record ac_ext : Type := Ext { ex_id : str; ex_extra : option bytes }.
(** hgaa/attcert.py 388-400 *)
Definition ext_encode (x : ac_ext) : res bytes :=
  let extra := or_empty (ex_extra x) in
  i <- utf8_encode (ex_id x) ;;
  h1 <- pack_u 2 (len (ex_id x)) ;; h2 <- pack_u 2 (len extra) ;;
  Ok (h1 ++ h2 ++ pack_text (ex_id x) i ++ extra).
(** hgaa/attcert.py 403-415 *)
Definition ext_decode (b : bytes) : res (ac_ext * bytes) :=
  '(h, b) <- take 4 b ;;
  '(i, h) <- get_u 2 h ;; '(x, _) <- get_u 2 h ;;
  let '(i, b) := cut i b in
  id <- utf8_decode i ;;
  let '(extra, b) := opt_cut x b in
  Ok (Ext id extra, b).
(** hgaa/attcert.py 417-418 *)
Definition ext_eqb (a b : ac_ext) : bool := opt_eqb bytes_eqb (ex_extra a) (ex_extra b) && str_eqb (ex_id a) (ex_id b).

(** hgaa/attcert.py 421-424; both fields can be None after decoding. *)
Record ac_sig : Type := Sig { sg_algo : option str; sg_value : option bytes }.
(** hgaa/attcert.py 432-439; TypeError from len(None). *)
Definition sig_encode (s : ac_sig) : res bytes :=
  match sg_algo s, sg_value s with
  | Some algo, Some value =>
      a <- utf8_encode algo ;;
      h1 <- pack_u 2 (len algo) ;; h2 <- pack_u 2 (len value) ;;
      Ok (h1 ++ h2 ++ pack_text algo a ++ value)
  | _, _ => Err EType
  end.
(** hgaa/attcert.py 442-449 *)
Definition sig_decode (b : bytes) : res (ac_sig * bytes) :=
  '(h, b) <- take 4 b ;;
  '(a, h) <- get_u 2 h ;; '(v, _) <- get_u 2 h ;;
  let '(x, b) := cut a b in
  algo <- (if 0 <? a then s <- utf8_decode x ;; Ok (Some s) else Ok None) ;;
  let '(value, b) := opt_cut v b in
  Ok (Sig algo value, b).
(** hgaa/attcert.py 451-452 *)
Definition sig_eqb (a b : ac_sig) : bool :=
  opt_eqb bytes_eqb (sg_value a) (sg_value b) && opt_eqb str_eqb (sg_algo a) (sg_algo b).

(** ** Certificates *)

(** hgaa/attcert.py 463-473.  Issuer, holder, information and revocation rules are required. *)
Record cert : Type := Cert {
  c_issuer : ac_issuer; c_holder : ac_holder; c_info : ac_info; c_atts : option (list ac_att);
  c_rev : ac_rev; c_del : option ac_del; c_exts : option (list ac_ext); c_sig : option ac_sig }.

(** hgaa/attcert.py 617-623 and 625-631: the number of entries and the entries. *)
Definition encode_list {A} (enc : A -> res bytes) (o : option (list A)) : res bytes :=
  match o with
  | None | Some [] => Ok [0; 0]%N
  | Some l => n <- pack_u 2 (len l) ;; bs <- mapM enc l ;; Ok (n ++ List.concat bs)
  end.
(** hgaa/attcert.py 610-635, _encode_body.  Computed in this order (which exception comes
    first), joined in another. *)
Definition encode_body (c : cert) : res bytes :=
  is <- issuer_encode (c_issuer c) ;;
  ho <- holder_encode (c_holder c) ;;
  inf <- info_encode (c_info c) ;;
  rv <- rev_encode (c_rev c) ;;
  de <- (match c_del c with Some d => del_encode d | None => Ok [0; 0]%N end) ;;
  at_ <- encode_list att_encode (c_atts c) ;;
  ex <- encode_list ext_encode (c_exts c) ;;
  Ok (is ++ ho ++ inf ++ at_ ++ rv ++ de ++ ex).

Fixpoint decode_list {A} (dec : bytes -> res (A * bytes)) (k : nat) (b : bytes) : res (list A * bytes) :=
  match k with
  | O => Ok ([], b)
  | S k => '(x, b) <- dec b ;; '(l, b) <- decode_list dec k b ;; Ok (x :: l, b)
  end.
(** hgaa/attcert.py 652-657 *)
Definition decode_del (b : bytes) : res (option ac_del * bytes) :=
  '(n, r) <- get_u 2 b ;;
  if n =? 0 then Ok (None, r) else '(d, b) <- del_decode b ;; Ok (Some d, b).
(** hgaa/attcert.py 638-670, _decode_body *)
Definition decode_body (b : bytes) : res (cert * bytes) :=
  '(is, b) <- issuer_decode b ;;
  '(ho, b) <- holder_decode b ;;
  '(inf, b) <- info_decode b ;;
  '(n, b) <- get_u 2 b ;;
  '(atts, b) <- decode_list att_decode (Z.to_nat n) b ;;
  '(rv, b) <- rev_decode b ;;
  '(de, b) <- decode_del b ;;
  '(m, b) <- get_u 2 b ;;
  '(exts, b) <- decode_list ext_decode (Z.to_nat m) b ;;
  Ok (Cert is ho inf (Some atts) rv de (match exts with [] => None | _ => Some exts end) None, b).

(** hgaa/attcert.py 589-592, with the time. *)
Definition verify_time (c : cert) (now : Z) : bool :=
  (rv_after (c_rev c) <? now) && (now <? rv_before (c_rev c)).

(** ** Equality, hgaa/attcert.py 672-730 *)

(** 696-706 and 714-724: every entry of [l] must equal the first entry of [m] with its id. *)
Fixpoint match_first {A} (id : A -> str) (eqb : A -> A -> bool) (x : A) (m : list A) : bool :=
  match m with
  | [] => false
  | y :: m => if str_eqb (id x) (id y) then eqb x y else match_first id eqb x m
  end.
(** 693-708 and 711-726: len(None) is a TypeError. *)
Definition sets_eq {A} (id : A -> str) (eqb : A -> A -> bool) (a b : option (list A)) : res bool :=
  match a, b with
  | None, None => Ok true
  | Some l, Some m =>
      Ok ((List.length l =? List.length m)%nat && forallb (fun x => match_first id eqb x m) l)
  | _, _ => Err EType
  end.
(** 677-682 *)
Definition del_same (a b : option ac_del) : bool :=
  match a, b with
  | Some x, Some y => del_eqb x y
  | None, None => true
  | None, Some y => match de_extra y with None => true | _ => false end
  | Some x, None => match de_extra x with None => true | _ => false end
  end.
(** 684-690 *)
Definition sig_same (a b : option ac_sig) : bool :=
  match a, b with
  | Some x, Some y => sig_eqb x y
  | None, None => true
  | None, Some y => match sg_value y, sg_algo y with None, None => true | _, _ => false end
  | Some x, None => match sg_value x, sg_algo x with None, None => true | _, _ => false end
  end.
Definition cert_eq (a b : cert) : res bool :=
  if issuer_eqb (c_issuer a) (c_issuer b) && holder_eqb (c_holder a) (c_holder b) &&
     info_eqb (c_info a) (c_info b) && rev_eqb (c_rev a) (c_rev b) then
    if negb (del_same (c_del a) (c_del b)) then Ok false
    else if negb (sig_same (c_sig a) (c_sig b)) then Ok false
    else
      r <- sets_eq at_id att_eqb (c_atts a) (c_atts b) ;;
      if negb r then Ok false
      else sets_eq ex_id ext_eqb (c_exts a) (c_exts b)
  else Ok false.

(** ** Signatures *)

(** The cryptographic library (Crypto.PublicKey.RSA, Crypto.Hash.SHA256,
    Crypto.Signature.pkcs1_15).  [k_import]: RSA.import_key, ValueError for bytes that are no
    key; [k_sign]: an exception for an unusable key; [k_verify]: False stands for the
    ValueError raised for a bad signature. *)
Record crypto : Type := {
  pub : Type; prv : Type;
  k_import : bytes -> res pub;
  k_hash : bytes -> bytes;
  k_sign : prv -> bytes -> res bytes;
  k_verify : pub -> bytes -> bytes -> bool
}.

(** hgaa/attcert.py 504, 549, 582 *)
Definition default_algo : str := lit "RSASSA-PKCS1-v1_5:SHA256".

(** str(n) for an integer. *)
Fixpoint dec_digits (fuel : nat) (n : N) (acc : str) : str :=
  match fuel with
  | O => acc
  | S f => let acc := (48 + n mod 10)%N :: acc in
           if (n <? 10)%N then acc else dec_digits f (n / 10)%N acc
  end.
Definition str_of_Z (z : Z) : str :=
  let d := dec_digits (S (N.to_nat (N.log2 (Z.abs_N z)))) (Z.abs_N z) [] in
  if z <? 0 then 45%N :: d else d.

(** hgaa/attcert.py 455-460 *)
Inductive xformat : Type := FBytes | FText | FXml | FBase64 | FBase64Full.
(** Argument of import_ac: a bytearray, an immutable byte string or a str. *)
Inductive pyin : Type := InArray (b : bytes) | InBytes (b : bytes) | InStr (s : str).
(** Result of export_ac (a bytearray, or bytes for BASE64; or a str). *)
Inductive pyout : Type := OutBytes (b : bytes) | OutStr (s : str).

Fixpoint split_on (c : N) (s : str) : list str :=
  match s with
  | [] => [[]]
  | x :: r =>
      if (x =? c)%N then [] :: split_on c r
      else match split_on c r with [] => [[x]] | w :: ws => (x :: w) :: ws end
  end.
Definition nl : N := 10%N.

(** ** Text, the [__str__] methods *)

Definition line (s : str) : str := s ++ [nl].
Definition field (label : string) (s : str) : str := line (lit label ++ s).
Definition opt_field (label : string) (o : option str) : str :=
  match o with Some s => field label s | None => [] end.
Definition extra_field (o : option bytes) : str := opt_field "EXTENSION BYTES: " (option_map b64encode o).
(** str() of an AttributeType. *)
Definition atype_str (t : atype) : str :=
  lit match t with
      | ANull => "AttributeType.NULL" | AInt => "AttributeType.INT" | AFloat => "AttributeType.FLOAT"
      | AString => "AttributeType.STRING" | ABool => "AttributeType.BOOL" | ASet => "AttributeType.SET"
      end.
(** hgaa/attcert.py 48-55 *)
Definition info_str (i : ac_info) : str :=
  line (lit "==== BEGIN INFORMATION ====") ++ field "VERSION: " (str_of_Z (i_version i)) ++
  field "SERIAL: " (str_of_Z (i_serial i)) ++ field "ISSUED: " (str_of_Z (i_issued i)) ++
  line (lit "==== END INFORMATION ====").
(** hgaa/attcert.py 89-99 *)
Definition issuer_str (i : ac_issuer) : str :=
  line (lit "==== BEGIN ISSUER ====") ++ field "PUBLIC KEY: " (b64encode (is_key i)) ++
  field "KEY ALGORITHM: " (is_algo i) ++ field "UID: " (is_uid i) ++
  opt_field "NAME: " (is_name i) ++ opt_field "URL: " (is_url i) ++ line (lit "==== END ISSUER ====").
(** hgaa/attcert.py 158-165 *)
Definition holder_str (i : ac_holder) : str :=
  line (lit "==== BEGIN HOLDER ====") ++ field "PUBLIC KEY: " (b64encode (ho_key i)) ++
  field "KEY ALGORITHM: " (ho_algo i) ++ field "UID: " (ho_uid i) ++
  opt_field "NAME: " (ho_name i) ++ line (lit "==== END HOLDER ====").
(** hgaa/attcert.py 218-232 *)
Definition att_str (a : ac_att) : str :=
  line (lit "#### BEGIN ATTRIBUTE: " ++ at_id a ++ lit " ####") ++
  field "ATTRIBUTE ID: " (at_id a) ++ field "ATTRIBUTE TYPE: " (atype_str (at_type a)) ++
  opt_field "ATTRIBUTE VALUE: " (at_value a) ++ opt_field "ATTRIBUTE NAME: " (at_name a) ++
  extra_field (at_extra a) ++ line (lit "#### END ATTRIBUTE: " ++ at_id a ++ lit " ####").
(** hgaa/attcert.py 297-307 *)
Definition rev_str (r : ac_rev) : str :=
  line (lit "==== BEGIN REVOCATION RULES ====") ++ field "VALID AFTER: " (str_of_Z (rv_after r)) ++
  field "VALID BEFORE: " (str_of_Z (rv_before r)) ++ opt_field "URL: " (rv_url r) ++
  extra_field (rv_extra r) ++ line (lit "==== END REVOCATION RULES ====").
(** hgaa/attcert.py 349-356 *)
Definition del_str (d : ac_del) : str :=
  match de_extra d with
  | Some _ => line (lit "==== BEGIN DELEGATION RULES ====") ++ extra_field (de_extra d) ++
              line (lit "==== END DELEGATION RULES ====")
  | None => []
  end.
(** hgaa/attcert.py 381-386 *)
Definition ext_str (x : ac_ext) : str :=
  line (lit "#### BEGIN EXTENSION: " ++ ex_id x ++ lit " ####") ++ field "EXTENSION ID: " (ex_id x) ++
  extra_field (ex_extra x) ++ line (lit "#### END EXTENSION: " ++ ex_id x ++ lit " ####").
(** hgaa/attcert.py 426-430; b64encode(None) is a TypeError. *)
Definition sig_str (s : ac_sig) : res str :=
  match sg_value s with
  | None => Err EType
  | Some v =>
      Ok (line (lit "==== BEGIN SIGNATURE ====") ++
          field "SIGNATURE ALGORITHM: " (match sg_algo s with Some a => a | None => lit "None" end) ++
          field "SIGNATURE VALUE: " (b64encode v) ++ line (lit "==== END SIGNATURE ===="))
  end.
Definition block (b e : string) (o : option (list str)) : str :=
  match o with
  | None | Some [] => []
  | Some l => line (lit b) ++ List.concat l ++ line (lit e)
  end.
(** hgaa/attcert.py 475-502 *)
Definition to_text (c : cert) : res str :=
  s <- (match c_sig c with Some s => sig_str s | None => Ok [] end) ;;
  Ok (line (lit "---- BEGIN ATTRIBUTE CERTIFICATE ----") ++ line (lit "FORMAT: TEXT") ++
      field "VERSION: " (str_of_Z (i_version (c_info c))) ++
      info_str (c_info c) ++ issuer_str (c_issuer c) ++ holder_str (c_holder c) ++
      block "==== BEGIN ATTRIBUTE SET ====" "==== END ATTRIBUTE SET ====" (option_map (map att_str) (c_atts c)) ++
      rev_str (c_rev c) ++ match c_del c with Some d => del_str d | None => [] end ++
      block "==== BEGIN EXTENSIONS ====" "==== END EXTENSIONS ====" (option_map (map ext_str) (c_exts c)) ++
      s ++ lit "---- END ATTRIBUTE CERTIFICATE ----").

Section WithCrypto.
Variable K : crypto.

Definition with_sig (c : cert) (s : option ac_sig) : cert :=
  Cert (c_issuer c) (c_holder c) (c_info c) (c_atts c) (c_rev c) (c_del c) (c_exts c) s.

(** hgaa/attcert.py 582-587: the certificate with its new signature. *)
Definition sign (c : cert) (key : prv K) (algo : str) : res cert :=
  b <- encode_body c ;; s <- k_sign K key (k_hash K b) ;; Ok (with_sig c (Some (Sig (Some algo) (Some s)))).

(** hgaa/attcert.py 549-562: also returns the object, whose signature [sign] sets. *)
Definition ac_encode (c : cert) (do_sign : bool) (key : option (prv K)) (algo : str) : cert * res bytes :=
  match encode_body c with
  | Err e => (c, Err e)
  | Ok body =>
      let finish (c : cert) : cert * res bytes :=
        (c, s <- (match c_sig c with Some s => sig_encode s | None => Ok [0; 0; 0; 0]%N end) ;; Ok (body ++ s)) in
      if do_sign then
        match key with
        | None => (c, Err EGeneric)
        | Some key => match sign c key algo with Ok c => finish c | Err e => (c, Err e) end
        end
      else finish c
  end.

(** hgaa/attcert.py 594-608 *)
Definition verify_signature (c : cert) : res bool :=
  match c_sig c with
  | Some (Sig (Some _) (Some v)) =>
      pk <- k_import K (is_key (c_issuer c)) ;;
      b <- encode_body c ;;
      Ok (k_verify K pk (k_hash K b) v)
  | _ => Ok false
  end.

(** hgaa/attcert.py 565-580; the bytearray is empty when this returns. *)
Definition ac_decode (b : bytes) (verify : bool) : res cert :=
  '(c, b) <- decode_body b ;;
  '(s, b) <- sig_decode b ;;
  let c := with_sig c (match s with Sig None None => None | _ => Some s end) in
  match b with
  | _ :: _ => Err EGeneric
  | [] =>
      if verify then ok <- verify_signature c ;; if ok then Ok c else Err EGeneric
      else Ok c
  end.

(** hgaa/attcert.py 504-526 *)
Definition ac_export (c : cert) (f : xformat) (do_sign : bool) (key : option (prv K)) (algo : str) : cert * res pyout :=
  match f with
  | FBytes => let '(c, r) := ac_encode c do_sign key algo in (c, b <- r ;; Ok (OutBytes b))
  | FBase64 => let '(c, r) := ac_encode c do_sign key algo in (c, b <- r ;; Ok (OutBytes (b64encode b)))
  | FXml => (c, Err EGeneric)
  | FText =>
      if do_sign then
        match key with
        | None => (c, Err EGeneric)
        | Some key => match sign c key algo with
                      | Ok c => (c, s <- to_text c ;; Ok (OutStr s))
                      | Err e => (c, Err e)
                      end
        end
      else (c, s <- to_text c ;; Ok (OutStr s))
  | FBase64Full =>
      let '(c, r) := ac_encode c do_sign key algo in
      (c, b <- r ;;
          Ok (OutStr ((lit "---- BEGIN ATTRIBUTE CERTIFICATE ----" ++ nl :: lit "FORMAT: BASE64" ++ nl ::
                       lit "VERSION: " ++ str_of_Z (i_version (c_info c)) ++ [nl]) ++
                      b64encode b ++ (nl :: lit "---- END ATTRIBUTE CERTIFICATE ----"))))
  end.

(** hgaa/attcert.py 529-547.  An immutable byte string cannot be consumed: TypeError after
    the first section; a str cannot be unpacked: TypeError. *)
Definition ac_import (i : pyin) (f : xformat) (verify : bool) : res cert :=
  let base64 (i : pyin) : res cert :=
    b <- (match i with InArray b | InBytes b => b64decode b | InStr s => b64decode_str s end) ;;
    ac_decode b verify in
  match f with
  | FBytes =>
      match i with
      | InArray b => ac_decode b verify
      | InBytes b => _ <- issuer_decode b ;; Err EType
      | InStr _ => Err EType
      end
  | FBase64 => base64 i
  | FXml | FText => Err EGeneric
  | FBase64Full =>
      match i with
      | InStr s => match nth_error (split_on nl s) 3 with Some p => base64 (InStr p) | None => Err EIndex end
      | _ => Err EType
      end
  end.

End WithCrypto.
