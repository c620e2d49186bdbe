(** * AAuthDemo: model of hgaa/clients/demos/aauth.py, the graphical attribute authority client

    The frame is a record and every callback a function on it.  Of tkinter the model keeps what
    the entries, lists, text boxes, the label and the tree hold, and that callbacks run one
    after the other; entries and lists give back the text that was put in.  The boxes "Request
    Response" and "Raw Attribute Certificate" cannot be typed in, the box with the key can.
    An exception that leaves a callback is printed by tkinter and the program goes on, so a
    callback returns the frame it leaves behind together with how it ended.  What ladon,
    RSA.generate and the services do is an argument of the callback.  The boxes hold what they
    show before line breaks are put in; times taken, logging, the placing of widgets and
    ATT_TEST (False) are not modelled, nor is the button "Import Key", which is disabled. *)

From Coq Require Import NArith ZArith List Bool String.
From Verif Require Import PyBase Struct AttCert Config PAuth AAuth Clients.
Import ListNotations.
Open Scope Z_scope.

(** ** The certificate tree *)

(** A cell of the column "Value": a number, a text, bytes, or None. *)
Inductive cell : Type := CellInt (z : Z) | CellText (s : str) | CellBytes (b : bytes) | CellNone.
(** A row with its name, its value and the rows below it. *)
Inductive tree_row : Type := TreeRow (name : str) (value : option cell) (below : list tree_row).

Definition leaf (name : string) (v : cell) : tree_row := TreeRow (lit name) (Some v) [].
Definition group (name : string) (l : list tree_row) : tree_row := TreeRow (lit name) None l.
Definition opt_leaf {A} (name : string) (f : A -> cell) (o : option A) : list tree_row :=
  match o with Some x => [leaf name (f x)] | None => [] end.

(** Digits of '%X' and of binascii.hexlify. *)
Definition hex_digit (ten : N) (d : N) : N := if (d <? 10)%N then (48 + d)%N else (ten + (d - 10))%N.
Fixpoint hex_digits (fuel : nat) (n : N) (acc : str) : str :=
  match fuel with
  | O => acc
  | S f => let acc := hex_digit 65 (n mod 16)%N :: acc in
           if (n <? 16)%N then acc else hex_digits f (n / 16)%N acc
  end.
(** ('0x%0.2X' % n)[2:], hgaa/clients/demos/aauth.py 215; two digits at least.  A serial number
    that was read is not negative. *)
Definition serial_hex (z : Z) : str :=
  let d := hex_digits (S (N.to_nat (N.log2 (Z.to_N z)))) (Z.to_N z) [] in
  match d with [x] => [48%N; x] | _ => d end.
(** binascii.hexlify, lower case; the text boxes show it in capitals, two digits at a time. *)
Definition hexlify (b : bytes) : bytes := flat_map (fun x => [hex_digit 97 (x / 16)%N; hex_digit 97 (x mod 16)%N]) b.

(** att_type.name *)
Definition type_name (t : atype) : str :=
  lit match t with ANull => "NULL" | AInt => "INT" | AFloat => "FLOAT" | AString => "STRING" | ABool => "BOOL" | ASet => "SET" end.

Section WithDemo.
Variable U : unicode.
Variable K : crypto.
Variable pem : prv K -> bytes.      (* key.publickey().exportKey() *)
Variable bits : prv K -> Z.
Variable conn : Type.
Variable pair : prv K -> str.       (* key.exportKey().decode('utf-8') *)
(** datetime.fromtimestamp(t).strftime(...), which raises for times it cannot represent. *)
Variable day : Z -> res str.

(** 248-255; a value that reads none in any case is left out. *)
Definition att_tree (a : ac_att) : tree_row :=
  TreeRow (at_id a) None
    ([leaf "id" (CellText (at_id a))] ++ opt_leaf "name" CellText (at_name a) ++ [leaf "type" (CellText (type_name (at_type a)))] ++
     match at_value a with
     | Some v => if negb (str_eqb (py_lower U v) (lit "none")) then [leaf "value" (CellText v)] else []
     | None => []
     end).
(** 282-286 *)
Definition ext_tree (x : ac_ext) : tree_row :=
  TreeRow (ex_id x) None [leaf "eid" (CellText (ex_id x)); leaf "extra_bytes" (match ex_extra x with Some b => CellBytes b | None => CellNone end)].
(** 196-294, _build_ac_tree: the rows, or the exception raised; then only the rows before it are
    in the tree, and the model does not say which. *)
Definition build_tree (c : cert) : res (list tree_row) :=
  issued <- day (i_issued (c_info c)) ;;
  atts <- (match c_atts c with Some l => Ok (map att_tree l) | None => Err EType end) ;;
  after <- day (rv_after (c_rev c)) ;;
  before <- day (rv_before (c_rev c)) ;;
  sign <- (match c_sig c with
           | None => Ok []
           | Some s =>
               match sg_value s with
               | None => Err EType
               | Some v => Ok [leaf "sig_algo" (match sg_algo s with Some a => CellText a | None => CellNone end);
                               leaf "sig_value" (CellBytes (hexlify v))]
               end
           end) ;;
  Ok [group "Information" [leaf "version" (CellInt (i_version (c_info c))); leaf "serial" (CellText (serial_hex (i_serial (c_info c))));
                           leaf "issued" (CellText issued)];
      group "Issuer" ([leaf "pub_key" (CellBytes (is_key (c_issuer c))); leaf "key_algo" (CellText (is_algo (c_issuer c)));
                       leaf "uid" (CellText (is_uid (c_issuer c)))] ++
                      opt_leaf "name" CellText (is_name (c_issuer c)) ++ opt_leaf "url" CellText (is_url (c_issuer c)));
      group "Holder" ([leaf "pub_key" (CellBytes (ho_key (c_holder c))); leaf "key_algo" (CellText (ho_algo (c_holder c)));
                       leaf "uid" (CellText (ho_uid (c_holder c)))] ++ opt_leaf "name" CellText (ho_name (c_holder c)));
      group "Attribute Set" atts;
      group "Revocation Rules" ([leaf "valid_after" (CellText after); leaf "valid_before" (CellText before)] ++
                                opt_leaf "url" CellText (rv_url (c_rev c)) ++ opt_leaf "extra_bytes" CellBytes (rv_extra (c_rev c)));
      group "Delegation Rules" (match c_del c with Some d => opt_leaf "extra_bytes" CellBytes (de_extra d) | None => [] end);
      group "Extensions" (match c_exts c with Some l => map ext_tree l | None => [] end);
      group "Signature" sign].

(** ** The frame *)

(** The box "Request Response": empty, an exception, the answer to an info request, or the bytes
    received. *)
Inductive response_text : Type := RespEmpty | RespError (e : client_err) | RespInfo (info : str) | RespBytes (b : bytes).
(** The box "Raw Attribute Certificate". *)
Inductive cert_text : Type := TextEmpty | TextHex (b : bytes) | TextExport (size : Z) (s : str) | TextBase64 (s : str).
Inductive verified : Type := NotChecked | VerifiedTrue | VerifiedFalse.
(** The tree: as at the start, complete, or what an exception left of it. *)
Inductive tree_view : Type := TreeEmpty | TreeShown (l : list tree_row) | TreeCut.

Record dframe : Type := DFrame {
  d_client : client K conn;             (* aaclient *)
  d_key : option (prv K);               (* key *)
  d_size : Z;                           (* key_size *)
  d_home : str;                         (* default_service_desc *)
  d_url : str; d_user : str; d_pass : str;
  d_key_text : str;                     (* the box with the key *)
  d_name : str; d_id : str;             (* the two entries for attributes *)
  d_names : list str; d_ids : list str; (* the two lists *)
  d_raw : option bytes;                 (* raw_ac *)
  d_ac : option cert;                   (* ac *)
  d_response : response_text; d_cert_text : cert_text; d_verified : verified; d_tree : tree_view
}.

(** How a callback ends: it returns, an exception leaves it, or it is still running after the
    given calls. *)
Inductive demo_err : Type := DClient (e : client_err) | DPy (e : exc) | DTcl.
Inductive outcome : Type := Returned | Raised (e : demo_err) | Running.

(** The fields that callbacks replace. *)
Definition with_client (f : dframe) (c : client K conn) : dframe :=
  DFrame c (d_key f) (d_size f) (d_home f) (d_url f) (d_user f) (d_pass f) (d_key_text f) (d_name f) (d_id f) (d_names f) (d_ids f)
    (d_raw f) (d_ac f) (d_response f) (d_cert_text f) (d_verified f) (d_tree f).
Definition with_key (f : dframe) (k : option (prv K)) (text : str) : dframe :=
  DFrame (d_client f) k (d_size f) (d_home f) (d_url f) (d_user f) (d_pass f) text (d_name f) (d_id f) (d_names f) (d_ids f)
    (d_raw f) (d_ac f) (d_response f) (d_cert_text f) (d_verified f) (d_tree f).
Definition with_login (f : dframe) (url user pass : str) : dframe :=
  DFrame (d_client f) (d_key f) (d_size f) (d_home f) url user pass (d_key_text f) (d_name f) (d_id f) (d_names f) (d_ids f)
    (d_raw f) (d_ac f) (d_response f) (d_cert_text f) (d_verified f) (d_tree f).
Definition with_names (f : dframe) (n : str) (l : list str) : dframe :=
  DFrame (d_client f) (d_key f) (d_size f) (d_home f) (d_url f) (d_user f) (d_pass f) (d_key_text f) n (d_id f) l (d_ids f)
    (d_raw f) (d_ac f) (d_response f) (d_cert_text f) (d_verified f) (d_tree f).
Definition with_ids (f : dframe) (n : str) (l : list str) : dframe :=
  DFrame (d_client f) (d_key f) (d_size f) (d_home f) (d_url f) (d_user f) (d_pass f) (d_key_text f) (d_name f) n (d_names f) l
    (d_raw f) (d_ac f) (d_response f) (d_cert_text f) (d_verified f) (d_tree f).
Definition with_cert (f : dframe) (raw : option bytes) (ac : option cert) (t : tree_view) : dframe :=
  DFrame (d_client f) (d_key f) (d_size f) (d_home f) (d_url f) (d_user f) (d_pass f) (d_key_text f) (d_name f) (d_id f) (d_names f) (d_ids f)
    raw ac (d_response f) (d_cert_text f) (d_verified f) t.
Definition with_response (f : dframe) (r : response_text) : dframe :=
  DFrame (d_client f) (d_key f) (d_size f) (d_home f) (d_url f) (d_user f) (d_pass f) (d_key_text f) (d_name f) (d_id f) (d_names f) (d_ids f)
    (d_raw f) (d_ac f) r (d_cert_text f) (d_verified f) (d_tree f).
Definition with_text (f : dframe) (t : cert_text) : dframe :=
  DFrame (d_client f) (d_key f) (d_size f) (d_home f) (d_url f) (d_user f) (d_pass f) (d_key_text f) (d_name f) (d_id f) (d_names f) (d_ids f)
    (d_raw f) (d_ac f) (d_response f) t (d_verified f) (d_tree f).
Definition with_label (f : dframe) (v : verified) : dframe :=
  DFrame (d_client f) (d_key f) (d_size f) (d_home f) (d_url f) (d_user f) (d_pass f) (d_key_text f) (d_name f) (d_id f) (d_names f) (d_ids f)
    (d_raw f) (d_ac f) (d_response f) (d_cert_text f) v (d_tree f).

(** 19-29 and 31-190 with 451-461: a new frame around a client with a description, with the key
    None and the user and password filled in. *)
Definition new_frame (c : client K conn) (size : Z) : dframe :=
  let home := match cl_desc K conn c with Some d => d | None => [] end in
  DFrame c None size home home (lit "dan") (lit "admin") [] [] [] [] [] None None RespEmpty TextEmpty NotChecked TreeEmpty.

(** ** Callbacks *)

(** 296-299 *)
Definition command_generate (generate : Z -> res (prv K)) (f : dframe) : dframe * outcome :=
  match generate (d_size f) with
  | Err e => (f, Raised (DPy e))
  | Ok k => (with_key f (Some k) (pair k), Returned)
  end.

Definition listed (x : str) (l : list str) : bool := existsb (str_eqb x) l.
Definition add_to (x : str) (l : list str) : list str :=
  if negb (str_eqb (py_strip U x) []) && negb (listed x l) then l ++ [x] else l.
(** 304-308, 314-318 *)
Definition command_add_name (f : dframe) : dframe * outcome := (with_names f [] (add_to (d_name f) (d_names f)), Returned).
Definition command_add_id (f : dframe) : dframe * outcome := (with_ids f [] (add_to (d_id f) (d_ids f)), Returned).
(** Listbox.delete of the selected row; with nothing selected the row is the empty tuple, which
    Tcl refuses. *)
Fixpoint drop_nth {A} (i : nat) (l : list A) : list A :=
  match l, i with [], _ => [] | _ :: r, O => r | x :: r, S i => x :: drop_nth i r end.
(** 310-312, 320-322; [sel] is the selected row. *)
Definition command_del_name (sel : option nat) (f : dframe) : dframe * outcome :=
  match sel with None => (f, Raised DTcl) | Some i => (with_names f (d_name f) (drop_nth i (d_names f)), Returned) end.
Definition command_del_id (sel : option nat) (f : dframe) : dframe * outcome :=
  match sel with None => (f, Raised DTcl) | Some i => (with_ids f (d_id f) (drop_nth i (d_ids f)), Returned) end.

(** 325-326 and 338-339: outside the try. *)
Definition follow_url (connect : option str -> option conn) (f : dframe) : dframe * cres unit :=
  if match cl_desc K conn (d_client f) with Some d => str_eqb d (d_url f) | None => false end then (f, COk tt)
  else let '(c, r) := update_service K conn connect (Some (d_url f)) None (d_client f) in (with_client f c, r).

(** 324-335; [net] answers with the text that pprint makes of the result. *)
Definition command_info (connect : option str -> option conn) (net : conn -> option (reply str)) (f : dframe) : dframe * outcome :=
  let '(f, r) := follow_url connect f in
  match r with
  | CBad e => (f, Raised (DClient e))
  | COk _ =>
      (with_response f (match client_info K conn net (d_client f) with COk s => RespInfo s | CBad e => RespError e end), Returned)
  end.

(** What result['data'].read() gives.  Subclasses of ValueError are caught by its name. *)
Definition attachment : Type := res bytes.
Definition is_value_error (e : exc) : bool :=
  match e with EValue | EUnicodeDecode | EUnicodeEncode | EBinascii => true | _ => false end.

(** What RSA.generate and the service do when a request is made. *)
Record call : Type := Call { ca_generate : Z -> res (prv K); ca_net : conn -> sent -> option (reply attachment) }.

(** 340-344, 348 and 367: the selected kind of credentials is row 0, here
    written as a text. *)
Definition login (f : dframe) : credentials := Cred (Some (lit "0")) (Some (d_user f)) (Some (d_pass f)).
Definition as_client (f : dframe) : client K conn :=
  let c := d_client f in Client K conn (cl_type K conn c) (cl_desc K conn c) (cl_size K conn c) (cl_last K conn c) (login f) (cl_conn K conn c).
Definition issue (f : dframe) (c : call) : dframe * cres attachment :=
  let '(cl, r) := client_request K pem bits conn (ca_generate c) (ca_net c) (Some (map Some (d_names f))) (Some (map Some (d_ids f))) (d_key f) (d_client f) in
  (with_client f cl, r).

(** 358-369: reading what the last request returned, or asking again; what comes out of the
    loop. *)
Fixpoint read_loop (got : attachment) (more : list call) (f : dframe) : dframe * (outcome + bytes) :=
  match got with
  | Ok b => (f, inr b)
  | Err e =>
      if is_value_error e then
        match more with
        | [] => (f, inl Running)
        | c :: more =>
            let '(f, r) := issue f c in
            match r with CBad e => (f, inl (Raised (DClient e))) | COk got => read_loop got more f end
        end
      else (f, inl (Raised (DPy e)))
  end.

(** 371-393, after the bytes were read. *)
Definition receive (b : bytes) (f : dframe) : dframe * outcome :=
  match cl_last K conn (d_client f) with
  | None => (with_key f None [], Raised (DPy EAttribute))
  | Some k =>
      let f := with_key f (Some k) (pair k) in
      match ac_decode K b false with
      | Err e => (with_cert f (Some b) (d_ac f) (d_tree f), Raised (DPy e))
      | Ok c =>
          let f := with_text (with_response f (RespBytes b)) (TextHex b) in
          match build_tree c with
          | Ok rows => (with_cert f (Some b) (Some c) (TreeShown rows), Returned)
          | Err e => (with_cert f (Some b) (Some c) TreeCut, Raised (DPy e))
          end
      end
  end.
(** 337-393; [first] is the request in the try, [more] those of the loop. *)
Definition command_ac (connect : option str -> option conn) (first : call) (more : list call) (f : dframe) : dframe * outcome :=
  let '(f, r) := follow_url connect f in
  match r with
  | CBad e => (f, Raised (DClient e))
  | COk _ =>
      let '(f, r) := issue (with_client f (as_client f)) first in
      match r with
      | CBad e => (with_response f (RespError e), Returned)
      | COk got =>
          match read_loop got more f with
          | (f, inl o) => (f, o)
          | (f, inr b) => receive b f
          end
      end
  end.

(** 395-398 *)
Definition command_clear (f : dframe) : dframe * outcome := (with_response f RespEmpty, Returned).
(** 400-411 *)
Definition command_reset (f : dframe) : dframe * outcome :=
  (with_login (with_key (with_ids (with_names f [] []) [] []) None []) (d_home f) [] [], Returned).
(** 413-417 *)
Definition command_clear_ac (f : dframe) : dframe * outcome := (with_text (with_label f NotChecked) TextEmpty, Returned).
(** 419-426 *)
Definition command_view_bytes (f : dframe) : dframe * outcome :=
  match d_raw f with Some b => (with_text f (TextHex b), Returned) | None => (f, Returned) end.
(** 428-441; the certificate is exported without signing it, so that it stays as it is. *)
Definition view_as (fmt : xformat) (show : str -> cert_text) (f : dframe) : dframe * outcome :=
  match d_ac f with
  | None => (f, Raised (DPy EAttribute))
  | Some c =>
      let '(c, r) := ac_export K c fmt false None default_algo in
      let f := with_cert f (d_raw f) (Some c) (d_tree f) in
      match r with
      | Ok (OutStr s) => (with_text f (show s), Returned)
      | Ok (OutBytes _) => (f, Raised (DPy EType))
      | Err e => (f, Raised (DPy e))
      end
  end.
Definition command_view_text : dframe -> dframe * outcome := view_as FText (fun s => TextExport (Z.of_nat (List.length s)) s).
Definition command_view_base64 : dframe -> dframe * outcome := view_as FBase64Full TextBase64.
(** 443-447 *)
Definition command_verify (f : dframe) : dframe * outcome :=
  match d_ac f with
  | None => (f, Raised (DPy EAttribute))
  | Some c =>
      match verify_signature K c with
      | Ok b => (with_label f (if b then VerifiedTrue else VerifiedFalse), Returned)
      | Err e => (f, Raised (DPy e))
      end
  end.

(** ** The user *)

(** What a user does: typing into a box, or pressing a button while the world behaves as given. *)
Inductive act : Type :=
| TypeUrl (s : str) | TypeUser (s : str) | TypePass (s : str) | TypeKey (s : str) | TypeName (s : str) | TypeId (s : str)
| PressGenerate (generate : Z -> res (prv K))
| PressAddName | PressAddId | PressDelName (sel : option nat) | PressDelId (sel : option nat)
| PressInfo (connect : option str -> option conn) (net : conn -> option (reply str))
| PressRequest (connect : option str -> option conn) (first : call) (more : list call)
| PressClear | PressReset | PressClearCert | PressBytes | PressText | PressBase64 | PressVerify.

Definition do_act (a : act) (f : dframe) : dframe * outcome :=
  match a with
  | TypeUrl s => (with_login f s (d_user f) (d_pass f), Returned)
  | TypeUser s => (with_login f (d_url f) s (d_pass f), Returned)
  | TypePass s => (with_login f (d_url f) (d_user f) s, Returned)
  | TypeKey s => (with_key f (d_key f) s, Returned)
  | TypeName s => (with_names f s (d_names f), Returned)
  | TypeId s => (with_ids f s (d_ids f), Returned)
  | PressGenerate g => command_generate g f
  | PressAddName => command_add_name f
  | PressAddId => command_add_id f
  | PressDelName sel => command_del_name sel f
  | PressDelId sel => command_del_id sel f
  | PressInfo connect net => command_info connect net f
  | PressRequest connect first more => command_ac connect first more f
  | PressClear => command_clear f
  | PressReset => command_reset f
  | PressClearCert => command_clear_ac f
  | PressBytes => command_view_bytes f
  | PressText => command_view_text f
  | PressBase64 => command_view_base64 f
  | PressVerify => command_verify f
  end.
(** A callback that is still running lets nothing else run. *)
Fixpoint use_demo (l : list act) (f : dframe) : dframe :=
  match l with
  | [] => f
  | a :: l => let '(f, o) := do_act a f in match o with Running => f | _ => use_demo l f end
  end.

End WithDemo.
