(** * Tools: model of the command line of hgaa/tools.py, of the start of the services
    (hgaa/services/aauth.py and hgaa/services/pauth.py, __init__ and info) and of
    hgaa/handler.py

    Files are a list of names and contents; which names can be written is an argument.  RSA
    keys (random generation, encrypted export and import) and bcrypt.hashpw are arguments.
    What a command prints besides a password hash, and logging, are added in ToolsLog. *)

From Coq Require Import NArith ZArith List Bool String.
From Verif Require Import PyBase Struct AttCert Config Logging PAuth AAuth Database.
Import ListNotations.
Open Scope Z_scope.

(** ** The command line, hgaa/tools.py 73-131 *)

Inductive command : Type :=
| CmdBuild (services : list str)
| CmdGenKey
| CmdPopulate (sets : list base)
| CmdPassword (service password : str)
| CmdGenAtts (n : str)
| CmdNothing.
(** The arguments without the name of the program; None is the exception for wrong
    arguments. *)
Definition dispatch (U : unicode) (argv : list str) : option command :=
  match argv with
  | [] => None
  | c :: args =>
      let c := py_lower U c in
      if str_eqb c (lit "build") then
        match args with
        | [] => None
        | [a] => if str_eqb a (lit "all") then Some (CmdBuild [lit "aauth"; lit "pauth"]) else Some (CmdBuild [py_lower U a])
        | _ => Some (CmdBuild (map (py_lower U) args))
        end
      else if str_eqb c (lit "genkey") then
        match args with [a] => if str_eqb (py_lower U a) (lit "aauth") then Some CmdGenKey else None | _ => None end
      else if str_eqb c (lit "populate") || str_eqb c (lit "pop") then
        match args with
        | [a] =>
            let a := py_lower U a in
            if str_eqb a (lit "all") then Some (CmdPopulate [BAAuth; BPAuth])
            else if str_eqb a (lit "aauth") then Some (CmdPopulate [BAAuth])
            else if str_eqb a (lit "pauth") then Some (CmdPopulate [BPAuth])
            else None
        | _ => None
        end
      else if str_eqb c (lit "password") || str_eqb c (lit "pass") then
        match args with [s; p] => Some (CmdPassword s p) | _ => None end
      else if str_eqb c (lit "genatts") then
        match args with [n] => Some (CmdGenAtts n) | _ => None end
      else Some CmdNothing
  end.

(** Errors: wrong arguments, the databases, the configuration, a file that cannot be opened,
    and other exceptions of Python. *)
Inductive tool_err : Type := TUsage | TDb (e : db_err) | TConf (e : conf_err) | TOpen | TPy (e : exc).
Inductive tres (A : Type) : Type := TOk (a : A) | TErr (e : tool_err).
Arguments TOk {A}. Arguments TErr {A}.
Definition tbind {A B} (x : tres A) (f : A -> tres B) : tres B := match x with TOk a => f a | TErr e => TErr e end.
Notation "x <<- e ;;; f" := (tbind e (fun x => f)) (at level 60, e at level 50, right associativity).
Definition of_dres {A} (x : dres A) : tres A := match x with DOk a => TOk a | DErr e => TErr (TDb e) end.
Definition of_res {A} (x : res A) : tres A := match x with Ok a => TOk a | Err e => TErr (TPy e) end.
Definition tneed (e : exc) (o : option str) : tres str := match o with Some s => TOk s | None => TErr (TPy e) end.

(** The world of the databases, the files, and the hashes printed. *)
Record tools : Type := ToolState { t_world : world; t_files : list (str * bytes); t_hashes : list (str * str) }.
Definition with_world (w : world) (t : tools) : tools := ToolState w (t_files t) (t_hashes t).

Section WithKeys.
Variable U : unicode.
Variable create_ok : str -> bool.
Variable fk : str -> bool.
Variable K : crypto.
(** RSA keys: exportKey of the private key with a passphrase, import_key, and exportKey and
    size_in_bits of the public key. *)
Variable seal : prv K -> option str -> res bytes.
Variable unseal : bytes -> option str -> res (prv K).
Variable pem : prv K -> bytes.
Variable bits : prv K -> Z.
(** bcrypt.hashpw with the salt of bcrypt.gensalt, and the files that can be written. *)
Variable hashpw : bytes -> res bytes.
Variable can_write : str -> bool.

Definition tconf (F : conf_file) (name sect : str) : tres (option str) :=
  match get_conf U F service_defaults name sect with CVal v => TOk v | CErr e => TErr (TConf e) end.

(** 39-48, gen_aauth_key; [key] is the new key.  open(None) raises TypeError. *)
Definition gen_aauth_key (key : prv K) (file pass : option str) (t : tools) : tools * tres unit :=
  match seal key pass with
  | Err e => (t, TErr (TPy e))
  | Ok data =>
      match file with
      | None => (t, TErr (TPy EType))
      | Some f => if can_write f then (ToolState (t_world t) (set_assoc f data (t_files t)) (t_hashes t), TOk tt)
                  else (t, TErr TOpen)
      end
  end.
(** 104-114: the example rows of a service; they are new objects in each process. *)
Definition test_rows (b : base) : list row := match b with BAAuth => test_aauth | BPAuth => test_pauth end.
Definition upper_name (b : base) : str := match b with BAAuth => s_aauth | BPAuth => s_pauth end.
Fixpoint populate_sets (F : conf_file) (w : world) (l : list base) : world * dres unit :=
  match l with
  | [] => (w, DOk tt)
  | b :: l =>
      match populate_db U create_ok fk F w (upper_name b) (fresh_rows (test_rows b)) true false with
      | (w, (_, DErr e)) => (w, DErr e)
      | (w, (_, DOk _)) => populate_sets F w l
      end
  end.
(** 123-125 *)
Definition password_hash (F : conf_file) (service pw : str) : tres str :=
  pepper <<- tconf F (lit "PASS_PEPPER") (py_upper U service) ;;;
  b <<- of_res (utf8_encode (pw ++ str_of_opt pepper)) ;;;
  h <<- of_res (hashpw b) ;;;
  of_res (utf8_decode h).
Definition run_command (F : conf_file) (key : prv K) (c : command) (t : tools) : tools * tres unit :=
  match c with
  | CmdBuild l => let '(w, r) := build_database U create_ok F (t_world t) l in (with_world w t, of_dres r)
  | CmdGenKey =>
      match (f <<- tconf F (lit "KEY_FILE") s_aauth ;;; p <<- tconf F (lit "KEY_PASS") s_aauth ;;; TOk (f, p)) with
      | TErr e => (t, TErr e)
      | TOk (f, p) => gen_aauth_key key f p t
      end
  | CmdPopulate l => let '(w, r) := populate_sets F (t_world t) l in (with_world w t, of_dres r)
  | CmdPassword s pw =>
      match password_hash F s pw with
      | TErr e => (t, TErr e)
      | TOk h => (ToolState (t_world t) (t_files t) (t_hashes t ++ [(pw, h)]), TOk tt)
      end
  | CmdGenAtts n =>
      match int_base U 10 n with
      | Err e => (t, TErr (TPy e))
      | Ok n => let '(w, r) := gen_atts U create_ok fk F (t_world t) n in (with_world w t, of_dres r)
      end
  | CmdNothing => (t, TOk tt)
  end.
Definition main (F : conf_file) (key : prv K) (argv : list str) (t : tools) : tools * tres unit :=
  match dispatch U argv with
  | None => (t, TErr TUsage)
  | Some c => run_command F key c t
  end.

(** ** The attribute authority, hgaa/services/aauth.py *)

(** The object after __init__: AAUTH_ID, A_URI, the URLs, the pepper, the length of validity,
    the key, and the session. *)
Record booted : Type := Booted {
  bo_name : option str; bo_uri : option str; bo_rev_url : str; bo_url : str; bo_pepper : option str;
  bo_length : Z; bo_key : prv K; bo_engine : option engine }.
(** 90-147 *)
Definition boot_res (F : conf_file) (files : list (str * bytes)) : tres (option engine -> booted) :=
  name <<- tconf F (lit "AAUTH_ID") s_aauth ;;;
  uri <<- tconf F (lit "A_URI") s_aauth ;;;
  rev <<- tconf F (lit "REV_URI") s_aauth ;;;
  host <<- tconf F (lit "SERVICE_HOST") (lit "LADON") ;;;
  port <<- tconf F (lit "SERVICE_PORT") (lit "LADON") ;;;
  host <<- tneed EAttribute host ;;;
  port <<- tneed EType port ;;;
  pepper <<- tconf F (lit "PASS_PEPPER") s_aauth ;;;
  length <<- tconf F (lit "AC_EXPIRE_LENGTH") s_aauth ;;;
  length <<- tneed EType length ;;;
  length <<- of_res (int_base U 10 length) ;;;
  file <<- tconf F (lit "KEY_FILE") s_aauth ;;;
  pass <<- tconf F (lit "KEY_PASS") s_aauth ;;;
  file <<- tneed EType file ;;;
  data <<- (match assoc file files with Some d => TOk d | None => TErr TOpen end) ;;;
  key <<- of_res (unseal data pass) ;;;
  TOk (Booted name uri (make_rev_url U rev host port) (make_url U host port) pepper length key).
Definition boot (F : conf_file) (w : world) (files : list (str * bytes)) : world * tres booted :=
  match boot_res F files with
  | TErr e => (w, TErr e)
  | TOk b => let '(w, r) := get_engine U create_ok F w s_aauth in (w, o <<- of_dres r ;;; TOk (b o))
  end.
(** The authority of AAuth.v, for an object with a name and a URI. *)
Definition authority_of (b : booted) : option (authority K) :=
  match bo_name b, bo_uri b with
  | Some n, Some u => Some {| au_name := n; au_uri := u; au_rev_url := bo_rev_url b; au_url := bo_url b; au_pepper := bo_pepper b;
      au_length := bo_length b; au_key := bo_key b; au_pub := pem (bo_key b); au_bits := bits (bo_key b) |}
  | _, _ => None
  end.
(** AttributeAuthorityInfo, 59-69; the cipher, signature and credential types are constants. *)
Record aa_info : Type := AAInfo {
  in_name : str; in_aa_version : Z; in_ac_version : Z; in_uri : str; in_rev_url : str; in_key : bytes;
  in_credentials : list (str * Z); in_cipher : str; in_size : Z; in_hash : str; in_sig : str }.
(** 149-183; KeyError without REMOTE_ADDR among the exports (157), ServerFault for an attribute
    that is None. *)
Definition info (b : booted) (exports : list (str * str)) : res aa_info :=
  match export (lit "REMOTE_ADDR") exports with
  | None => Err EKey
  | Some _ =>
      match bo_name b with
      | None => Err EServerFault
      | Some n =>
          match bo_uri b with
          | None => Err EServerFault
          | Some u => Ok (AAInfo n 1 1 u (bo_rev_url b) (pem (bo_key b)) [(lit "USER_PASS", 0)] (lit "RSA") (bits (bo_key b))
                            (lit "SHA256") (lit "RSASSA-PKCS1-v1_5"))
          end
      end
  end.

(** ** The policy authority, hgaa/services/pauth.py 108-128 *)

Record pa_booted : Type := PABooted { pb_name : option str; pb_uid : option str; pb_url : str; pb_engine : option engine }.
Definition pa_boot (F : conf_file) (w : world) : world * tres pa_booted :=
  match (name <<- tconf F (lit "PAUTH_NAME") s_pauth ;;;
         uid <<- tconf F (lit "PAUTH_UID") s_pauth ;;;
         host <<- tconf F (lit "SERVICE_HOST") (lit "LADON") ;;;
         port <<- tconf F (lit "SERVICE_PORT") (lit "LADON") ;;;
         host <<- tneed EAttribute host ;;;
         port <<- tneed EType port ;;;
         TOk (PABooted name uid (service_base U host port ++ lit "/PolicyAuthority/jsonwsp/"))) with
  | TErr e => (w, TErr e)
  | TOk b => let '(w, r) := get_engine U create_ok F w s_aauth in (w, o <<- of_dres r ;;; TOk (b o))
  end.

(** 159-170; the version numbers are those of 99-101. *)
Record pa_info : Type := PAInfo { pi_url : str; pi_version : Z; pi_uid : option str; pi_name : option str; pi_ac : Z; pi_pl : Z }.
Definition pa_info_of (b : pa_booted) (exports : list (str * str)) : res pa_info :=
  match export (lit "REMOTE_ADDR") exports with
  | None => Err EKey
  | Some _ => Ok (PAInfo (pb_url b) 1 (pb_uid b) (pb_name b) 1 1)
  end.

(** ** hgaa/handler.py *)

(** hgaa/services/__init__.py 1 and 39-47: the services switched on. *)
Fixpoint enabled (F : conf_file) (services : list str) : tres (list str) :=
  match services with
  | [] => TOk []
  | s :: r =>
      v <<- tconf F (lit "SERVICE_ENABLED") s ;;;
      v <<- tneed EAttribute v ;;;
      l <<- enabled F r ;;;
      TOk (if str_eqb (py_upper U v) (lit "TRUE") then s :: l else l)
  end.
Definition service_modules (F : conf_file) : tres (list str) := enabled F [lit "aauth"; lit "pauth"].
(** 59-65: the host and port served, and the host printed. *)
Definition serve_at (F : conf_file) : tres (str * Z * str) :=
  port <<- tconf F (lit "SERVICE_PORT") (lit "LADON") ;;;
  port <<- tneed EType port ;;;
  port <<- of_res (int_base U 10 port) ;;;
  host <<- tconf F (lit "SERVICE_HOST") (lit "LADON") ;;;
  host <<- tneed EAttribute host ;;;
  TOk (host, port, match py_strip U host with [] => lit "localhost" | _ => host end).

End WithKeys.
