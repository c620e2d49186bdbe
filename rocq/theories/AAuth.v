(** * AAuth: model of hgaa/services/aauth.py, the attribute authority, and of the tables of
    hgaa/schema/aauth.py

    A database is a list of rows for each table; texts are compared exactly.  The order in
    which the database returns rows is unspecified and an argument ([order]).  bcrypt, the
    random serial and the clocks are arguments.  The directory of issued certificates is a
    list of files; writing and reading a file does not fail.  Logging is not modelled (with
    the log level DEBUG bcrypt is called once more). *)

From Coq Require Import NArith ZArith List Bool String.
From Verif Require Import PyBase Struct AttCert.
Import ListNotations.
Open Scope Z_scope.

(** ** int(text, base) of Python *)

(** Other characters than ASCII become a space, a decimal digit or (nothing int() accepts)
    a question mark. *)
Definition int_char (U : unicode) (c : N) : N :=
  if asc c then c
  else if u_space U c then 32%N
  else match u_decimal U c with Some d => (48 + d)%N | None => 63%N end.
Definition c_space (c : N) : bool := (((9 <=? c) && (c <=? 13)) || (c =? 32))%N.
Fixpoint skip_space (s : str) : str :=
  match s with c :: r => if c_space c then skip_space r else s | [] => [] end.
Definition digit_in (base c : N) : option N :=
  let d := (if (48 <=? c) && (c <=? 57) then Some (c - 48)
            else if low c then Some (c - 87)
            else if up c then Some (c - 55) else None)%N in
  match d with Some n => if (n <? base)%N then Some n else None | None => None end.
(** Digits with single underscores between them; ValueError for anything else. *)
Fixpoint scan_int (base : N) (s : str) (acc : N) (seen us : bool) : res (N * str) :=
  match s with
  | c :: r =>
      if (c =? 95)%N then (if us || negb seen then Err EValue else scan_int base r acc seen true)
      else match digit_in base c with
           | Some d => scan_int base r (acc * base + d)%N true false
           | None => if us || negb seen then Err EValue else Ok (acc, s)
           end
  | [] => if us || negb seen then Err EValue else Ok (acc, s)
  end.
Definition int_sign (s : str) : bool * str :=
  match s with
  | c :: r => if (c =? 45)%N then (true, r) else if (c =? 43)%N then (false, r) else (false, s)
  | [] => (false, s)
  end.
(** For base 16 a prefix 0x, with an underscore after it or not. *)
Definition int_prefix (base : N) (s : str) : str :=
  match s with
  | z :: x :: r =>
      if ((base =? 16) && (z =? 48) && ((x =? 120) || (x =? 88)))%N
      then match r with u :: r' => if (u =? 95)%N then r' else r | [] => r end
      else s
  | _ => s
  end.
Definition int_base (U : unicode) (base : N) (s : str) : res Z :=
  let '(neg, s) := int_sign (skip_space (map (int_char U) s)) in
  '(n, r) <- scan_int base (int_prefix base s) 0%N false false ;;
  if forallb c_space r then Ok (if neg then - Z.of_N n else Z.of_N n) else Err EValue.

(** ** The database, hgaa/schema/aauth.py *)

(** 14-19 *)
Record att_row : Type := AttRow { ar_id : str; ar_name : str; ar_type : option atype }.
(** 24-29 *)
Record user_row : Type := UserRow { us_id : Z; us_name : str; us_password : str }.
(** 34-42 *)
Record assign_row : Type := Assign { as_user : Z; as_att : str; as_value : option str }.
Record adb : Type := ADB { d_atts : list att_row; d_users : list user_row; d_assigns : list assign_row }.

(** An Attribute object with the value attached to it (474, 482). *)
Definition valued : Type := (att_row * option str)%type.
(** 452-453: attributes joined with the assignments of the user. *)
Definition user_atts (d : adb) (uid : Z) : list valued :=
  flat_map (fun a => flat_map (fun s => if str_eqb (as_att s) (ar_id a) && (as_user s =? uid) then [(a, as_value s)] else [])
                              (d_assigns d)) (d_atts d).

(** ** Requests *)

(** Credentials, PublicKey, AttributeList and the exports of Ladon. *)
Record request : Type := Request {
  rq_type : Z; rq_username : option str; rq_password : option str;
  rq_key : bytes; rq_cipher : str; rq_size : Z;
  rq_ids : option (list (option str)); rq_names : option (list (option str));
  rq_exports : list (str * str) }.

(** The attributes set by the constructor, 90-147. *)
Record authority (K : crypto) : Type := Authority {
  au_name : str; au_uri : str; au_rev_url : str; au_url : str; au_pepper : option str; au_length : Z;
  au_key : prv K; au_pub : bytes; au_bits : Z }.
Arguments au_name {K}. Arguments au_uri {K}. Arguments au_rev_url {K}. Arguments au_url {K}.
Arguments au_pepper {K}. Arguments au_length {K}. Arguments au_key {K}. Arguments au_pub {K}. Arguments au_bits {K}.

(** time.struct_time of gmtime. *)
Record tm : Type := Tm {
  tm_year : Z; tm_mon : Z; tm_mday : Z; tm_hour : Z; tm_min : Z; tm_sec : Z; tm_wday : Z; tm_yday : Z; tm_isdst : Z }.
(** What the clock, the random numbers and strftime give during a request: the serial and
    issue time of ACInformation (hgaa/attcert.py 38-46), the time of 257 and its struct, and
    the names of weekday and month. *)
Record chance : Type := Chance {
  ch_serial : Z; ch_issued : Z; ch_time : Z; ch_tm : tm; ch_weekday : str; ch_month : str }.

(** 98-108: the URLs of the authority from the configured REV_URI, host and port. *)
Definition py_strip (U : unicode) (s : str) : str :=
  let fix go (s : str) : str := match s with c :: r => if isspace U c then go r else s | [] => [] end in
  rev (go (rev (go s))).
Definition service_base (U : unicode) (host port : str) : str :=
  lit "http://" ++ (match py_strip U host with [] => lit "localhost" | _ => host end) ++ lit ":" ++ port.
Definition make_rev_url (U : unicode) (rev_uri : option str) (host port : str) : str :=
  let fallback := service_base U host port ++ lit "/AttributeAuthority/jsonwsp/revocation_list" in
  match rev_uri with
  | None => fallback
  | Some u => match py_strip U u with [] => fallback | _ => u end
  end.
Definition make_url (U : unicode) (host port : str) : str :=
  service_base U host port ++ lit "/AttributeAuthority/jsonwsp/".

Definition export (name : str) (x : list (str * str)) : option str :=
  option_map snd (find (fun p => str_eqb (fst p) name) x).

(** ** Connection attributes, 185-356 *)

Definition con (name : str) (t : atype) (v : str) : ac_att :=
  make_att (lit "/attribute/connection/" ++ name) t (Some v) (Some name) None.
Definition str_of_bool (b : bool) : str := lit (if b then "True" else "False").
Definition has_char (c : N) (s : str) : bool := existsb (N.eqb c) s.
(** 212-217 and 229-234 *)
Fixpoint numbered (U : unicode) (base : N) (prefix : str) (i : Z) (parts : list str) : res (list ac_att) :=
  match parts with
  | [] => Ok []
  | p :: r =>
      n <- int_base U base p ;;
      l <- numbered U base prefix (i + 1) r ;;
      Ok (con (prefix ++ str_of_Z i) AInt (str_of_Z n) :: l)
  end.
(** 199-234 *)
Definition address_atts (U : unicode) (addr : str) : res (list ac_att) :=
  if has_char 46 addr then
    l <- numbered U 10 (lit "remote_addr_v4_oct") 0 (split_on 46 addr) ;;
    Ok (con (lit "ip_v4") ABool (str_of_bool true) :: con (lit "ip_v6") ABool (str_of_bool false) :: l)
  else if has_char 58 addr then
    l <- numbered U 16 (lit "remote_addr_v6_hex") 0 (split_on 58 addr) ;;
    Ok (con (lit "ip_v4") ABool (str_of_bool false) :: con (lit "ip_v6") ABool (str_of_bool true) :: l)
  else Ok [].
(** 187-196, with var.lower() written out *)
Definition export_atts (x : list (str * str)) : list ac_att :=
  flat_map (fun '(var, name) => match export (lit var) x with Some v => [con (lit name) AString v] | None => [] end)
    [("REMOTE_ADDR", "remote_addr"); ("REMOTE_HOST", "remote_host");
     ("REMOTE_IDENT", "remote_ident"); ("REMOTE_USER", "remote_user")]%string.

Section WithCrypto.
Variable K : crypto.
Variable U : unicode.
Variable au : authority K.

(** 237-354 *)
Definition other_atts (q : request) (h : chance) : list ac_att :=
  let t := ch_tm h in
  [con (lit "auth_method") AInt (str_of_Z (rq_type q));
   con (lit "pub_key") AString (b64encode (rq_key q));
   con (lit "pub_key_size") AInt (str_of_Z (rq_size q));
   con (lit "pub_key_algo") AString (rq_cipher q);
   con (lit "con_time") AInt (str_of_Z (ch_time h));
   con (lit "con_time_weekday") AString (ch_weekday h);
   con (lit "con_time_monthname") AString (ch_month h);
   con (lit "con_time_month") AInt (str_of_Z (tm_mon t));
   con (lit "con_time_day") AInt (str_of_Z (tm_mday t));
   con (lit "con_time_weekday") AInt (str_of_Z (tm_wday t));
   con (lit "con_time_year") AInt (str_of_Z (tm_year t));
   con (lit "con_time_yearday") AInt (str_of_Z (tm_yday t));
   con (lit "con_time_hour") AInt (str_of_Z (tm_hour t));
   con (lit "con_time_min") AInt (str_of_Z (tm_min t));
   con (lit "con_time_sec") AInt (str_of_Z (tm_sec t));
   con (lit "con_time_zone") AString (lit "GMT")] ++
  (if 0 <=? tm_isdst t then [con (lit "con_time_dst") ABool (str_of_bool (tm_isdst t =? 1))] else []) ++
  [con (lit "aauth_uid") AString (au_uri au);
   con (lit "aauth_name") AString (au_name au);
   con (lit "aauth_url") AString (au_url au);
   con (lit "aauth_pub_key") AString (b64encode (au_pub au));
   con (lit "aauth_pub_key_size") AInt (str_of_Z (au_bits au));
   con (lit "aauth_pub_key_algo") AString (lit "RSA");
   con (lit "aauth_version") AInt (str_of_Z 1);
   con (lit "ac_version") AInt (str_of_Z 1);
   con (lit "session_id") AInt (str_of_Z (ch_serial h));
   con (lit "session_length") AInt (str_of_Z (au_length au))].
Definition connection_atts (q : request) (h : chance) : res (list ac_att) :=
  a <- (match export (lit "REMOTE_ADDR") (rq_exports q) with Some addr => address_atts U addr | None => Ok [] end) ;;
  Ok (export_atts (rq_exports q) ++ a ++ other_atts q h).

(** ** The certificate, 358-425 *)

(** 140-144 *)
Definition issuer_of : ac_issuer :=
  Issuer (au_pub au) (lit "RSA[" ++ str_of_Z (au_bits au) ++ lit "]") (au_uri au) (Some (au_name au)) (Some (au_url au)).
Definition str_of_opt (o : option str) : str := match o with Some s => s | None => lit "None" end.
(** 379-385; an attribute without a type makes the encoder raise AttributeError (hgaa/attcert.py
    248).  It is raised here, so that of several exceptions another may be the first. *)
Definition user_att (p : valued) : res ac_att :=
  match ar_type (fst p) with
  | None => Err EAttribute
  | Some t => Ok (make_att (ar_id (fst p)) t (Some (str_of_opt (snd p))) (Some (ar_name (fst p))) None)
  end.
(** 359-404 *)
Definition make_cert (username : str) (q : request) (sel : list valued) (h : chance) : res cert :=
  cons <- connection_atts q h ;;
  us <- mapM user_att sel ;;
  Ok (Cert issuer_of
           (Holder (rq_key q) (rq_cipher q ++ lit "[" ++ str_of_Z (rq_size q) ++ lit "]")
                   (au_uri au ++ lit "/user/" ++ username) (Some username))
           (Info 1 (ch_serial h) (ch_issued h))
           (Some (us ++ cons))
           (Rev (ch_issued h) (ch_issued h + au_length au) (Some (au_rev_url au)) None)
           (Some (Del None)) None None).

(** 417, ('0x%0.2X.ac' % serial)[2:] *)
Definition hex_digit (n : N) : N := if (n <? 10)%N then (48 + n)%N else (55 + n)%N.
Fixpoint hex_digits (fuel : nat) (n : N) (acc : str) : str :=
  match fuel with
  | O => acc
  | S f => let acc := hex_digit (n mod 16) :: acc in
           if (n <? 16)%N then acc else hex_digits f (n / 16)%N acc
  end.
Definition file_name (serial : Z) : str :=
  let d := hex_digits (S (N.to_nat (N.log2 (Z.to_N serial)))) (Z.to_N serial) [] in
  (match d with [x] => [48%N; x] | _ => d end) ++ lit ".ac".

(** ** attribute_request, 429-534 *)

(** 459-468: the calls of map() have no effect; the removals. *)
Definition wanted (l : list (option str)) : list str :=
  flat_map (fun o => match o with
                     | Some s => if str_eqb s [] || str_eqb s (lit "*") then [] else [s]
                     | None => []
                     end) l.

Definition dict_set {A} (k : str) (v : A) (d : list (str * A)) : list (str * A) :=
  if existsb (fun p => str_eqb (fst p) k) d then map (fun p => if str_eqb (fst p) k then (fst p, v) else p) d
  else d ++ [(k, v)].
Definition dict_get {A} (k : str) (d : list (str * A)) : option A :=
  option_map snd (find (fun p => str_eqb (fst p) k) d).

(** 486-494 *)
Fixpoint take_ids (by_id : list (str * valued)) (ids : list str) (acc : list (str * valued)) : res (list (str * valued)) :=
  match ids with
  | [] => Ok acc
  | i :: r => match dict_get i by_id with
              | None => Err EClientFault
              | Some a => take_ids by_id r (dict_set (ar_id (fst a)) a acc)
              end
  end.
(** 496-505 *)
Fixpoint take_names (by_name : list (str * valued)) (names : list str) (acc : list (str * valued)) : res (list (str * valued)) :=
  match names with
  | [] => Ok acc
  | n :: r => match dict_get n by_name with
              | None => Err EClientFault
              | Some a => take_names by_name r
                            (match dict_get (ar_id (fst a)) acc with None => dict_set (ar_id (fst a)) a acc | Some _ => acc end)
              end
  end.
(** 473-475 and 481-484 *)
Definition dict_by (key : att_row -> str) (rows : list valued) : list (str * valued) :=
  fold_left (fun d a => dict_set (key (fst a)) a d) rows [].
(** 470-505, the values of the dictionary in order *)
Definition select (rows : list valued) (ids names : list str) : res (list valued) :=
  match ids, names with
  | [], [] => Ok (map snd (dict_by ar_id rows))
  | _, _ =>
      acc <- take_ids (dict_by ar_id rows) ids [] ;;
      acc <- take_names (dict_by ar_name rows) names acc ;;
      Ok (map snd acc)
  end.

Variable checkpw : bytes -> bytes -> res bool.
Variable order : list valued -> list valued.

(** 433-450 and 527-534: the authenticated user. *)
Definition authenticate (d : adb) (q : request) : res (user_row * str) :=
  if negb (rq_type q =? 0) then Err EClientFault else
  match rq_username q with
  | None => Err EAttribute
  | Some name =>
      match find (fun u => str_eqb (us_name u) (py_lower U name)) (d_users d) with
      | None => Err EClientFault
      | Some user =>
          pw <- utf8_encode (str_of_opt (rq_password q) ++ str_of_opt (au_pepper au)) ;;
          hash <- utf8_encode (us_password user) ;;
          ok <- checkpw pw hash ;;
          if ok then Ok (user, name) else Err EClientFault
      end
  end.

(** The certificate returned: version, format and the bytes; also the certificate object. *)
Record issued : Type := Issued { is_cert : cert; is_data : bytes; is_version : Z; is_format : Z; is_file : str }.

Definition request_res (d : adb) (q : request) (h : chance) : res issued :=
  _ <- (match export (lit "REMOTE_ADDR") (rq_exports q) with None => Err EKey | Some _ => Ok tt end) ;;
  '(user, name) <- authenticate d q ;;
  let rows := order (user_atts d (us_id user)) in
  match rq_ids q, rq_names q with
  | Some ids, Some names =>
      sel <- select rows (wanted ids) (wanted names) ;;
      c <- make_cert name q sel h ;;
      match ac_export K c FBytes true (Some (au_key au)) (lit "RSASSA-PKCS1-v1_5:SHA256") with
      | (c, Ok (OutBytes b)) => Ok (Issued c b 1 0 (file_name (ch_serial h)))
      | (_, Ok _) => Err EType
      | (_, Err e) => Err e
      end
  | _, _ => Err EType
  end.

(** The directory of certificates: writing replaces a file of the same name (418-421). *)
Definition attribute_request (dir : list (str * bytes)) (d : adb) (q : request) (h : chance) : list (str * bytes) * res issued :=
  match request_res d q h with
  | Ok r => (dict_set (is_file r) (is_data r) dir, Ok r)
  | Err e => (dir, Err e)
  end.

End WithCrypto.
