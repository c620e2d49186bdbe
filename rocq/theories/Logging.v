(** * Logging: model of hgaa/log.py, of the parts of Python's logging module it uses, and of
    the log level of hgaa/handler.py

    Loggers have a name, a level and handlers; a file is the list of the lines written to it.
    A line is the record and the formats of the handler: formatting itself is not modelled,
    nor the handler of last resort of a record that no handler takes.  After a file was
    truncated through another handle the lines before are gone (the gap of NULs that the
    first handle then leaves is not modelled).  Whether a file can be opened for writing is
    an argument ([can_open]). *)

From Coq Require Import NArith ZArith List Bool String.
From Verif Require Import PyBase Config.
Import ListNotations.
Open Scope Z_scope.

(** A handler: the file, or the standard error stream (None), and the two formats of its
    logging.Formatter (77, 79-91). *)
Record handler : Type := Handler { h_file : option str; h_format : option str; h_dates : option str }.
(** Level and handlers of a logging.Logger. *)
Record logger : Type := Logger { lg_level : Z; lg_handlers : list handler }.
(** A LogRecord. *)
Record record : Type := Rec { rc_name : str; rc_level : Z; rc_msg : str }.
(** A line: a record as a handler writes it. *)
Definition line : Type := (handler * record)%type.

(** The state of logging: the loggers by name; the loggers whose parent was set by hand
    (109, 133); SERVICE_LOG and CLIENT_LOG (14-15); the files; the lines on the stream. *)
Record logs : Type := Logs {
  l_loggers : list (str * logger); l_adopted : list (str * str);
  l_service : option str; l_client : option str;
  l_files : list (str * list line); l_stream : list line }.

Definition set_assoc {A} (k : str) (v : A) (l : list (str * A)) : list (str * A) :=
  if existsb (fun p => str_eqb (fst p) k) l then map (fun p => if str_eqb (fst p) k then (fst p, v) else p) l
  else l ++ [(k, v)].

(** ** logging.Logger *)

Definition dot : N := 46.
(** The dotted prefixes of a name, the shortest first, without the name itself. *)
Fixpoint prefixes_from (done rest : str) : list str :=
  match rest with
  | [] => []
  | c :: r => if (c =? dot)%N then done :: prefixes_from (done ++ [c]) r else prefixes_from (done ++ [c]) r
  end.
Definition prefixes (n : str) : list str := prefixes_from [] n.

(** A logger and those above it, from the logger up (Manager._fixupParents and
    _fixupChildren); the root of all loggers is left out. *)
Definition family (st : logs) (n : str) : list str :=
  let own := filter (fun m => match assoc m (l_loggers st) with Some _ => true | None => false end)
                    (n :: rev (prefixes n)) in
  own ++ match assoc (last own n) (l_adopted st) with Some p => [p] | None => [] end.

Definition level_of (st : logs) (n : str) : Z := match assoc n (l_loggers st) with Some g => lg_level g | None => 0 end.
Definition handlers_of (st : logs) (n : str) : list handler :=
  match assoc n (l_loggers st) with Some g => lg_handlers g | None => [] end.

(** Logger.getEffectiveLevel; the root of all loggers has level WARNING. *)
Definition effective (st : logs) (n : str) : Z :=
  match find (fun m => negb (level_of st m =? 0)) (family st n) with Some m => level_of st m | None => 30 end.

(** Handler.emit *)
Definition write (r : record) (st : logs) (h : handler) : logs :=
  match h_file h with
  | None => Logs (l_loggers st) (l_adopted st) (l_service st) (l_client st) (l_files st) (l_stream st ++ [(h, r)])
  | Some f => Logs (l_loggers st) (l_adopted st) (l_service st) (l_client st)
                   (set_assoc f ((match assoc f (l_files st) with Some x => x | None => [] end) ++ [(h, r)]) (l_files st))
                   (l_stream st)
  end.
(** Logger.log and callHandlers *)
Definition log (n : str) (lvl : Z) (msg : str) (st : logs) : logs :=
  if lvl <? effective st n then st
  else fold_left (write (Rec n lvl msg)) (flat_map (handlers_of st) (family st n)) st.

(** logging.getLogger: a new logger has no level and no handlers. *)
Definition get_logger (n : str) (st : logs) : logs :=
  match assoc n (l_loggers st) with
  | Some _ => st
  | None => Logs (l_loggers st ++ [(n, Logger 0 [])]) (l_adopted st) (l_service st) (l_client st) (l_files st) (l_stream st)
  end.
Definition child (p suffix : str) : str := p ++ dot :: suffix.

Definition with_logger (n : str) (g : logger) (st : logs) : logs :=
  Logs (set_assoc n g (l_loggers st)) (l_adopted st) (l_service st) (l_client st) (l_files st) (l_stream st).
Definition set_level (n : str) (lvl : Z) (st : logs) : logs := with_logger n (Logger lvl (handlers_of st n)) st.
Definition add_handler (n : str) (h : handler) (st : logs) : logs :=
  with_logger n (Logger (level_of st n) (handlers_of st n ++ [h])) st.
Definition adopt (n p : str) (st : logs) : logs :=
  Logs (l_loggers st) (set_assoc n p (l_adopted st)) (l_service st) (l_client st) (l_files st) (l_stream st).
(** Opening a file for writing or for appending. *)
Definition open_file (f : str) (trunc : bool) (st : logs) : logs :=
  let old := match assoc f (l_files st) with Some x => if trunc then [] else x | None => [] end in
  Logs (l_loggers st) (l_adopted st) (l_service st) (l_client st) (set_assoc f old (l_files st)) (l_stream st).

(** ** hgaa/log.py *)

(** Errors: of the configuration, of a method of None, of adding None to a text, of open(). *)
Inductive log_err : Type := LConf (e : conf_err) | LAttribute | LType | LOpen.
Inductive lres (A : Type) : Type := LOk (a : A) | LErr (e : log_err).
Arguments LOk {A}. Arguments LErr {A}.
Definition lbind {A B} (x : lres A) (f : A -> lres B) : lres B := match x with LOk a => f a | LErr e => LErr e end.
Notation "x <~ e ;; f" := (lbind e (fun x => f)) (at level 60, e at level 50, right associativity).

(** 11 *)
Definition hgaa : str := lit "hgaa".

Section WithConf.
Variable U : unicode.
(** services.ini and clients.ini *)
Variables FS FC : conf_file.
(** LOG_DIR (9) *)
Variable dir : str.
Variable can_open : str -> bool.
(** str(datetime.datetime.now()) *)
Variable now : str.

Definition conf (service : bool) (name sect : str) : lres (option str) :=
  match (if service then get_conf U FS service_defaults name sect else get_conf U FC client_defaults name sect) with
  | CVal v => LOk v
  | CErr e => LErr (LConf e)
  end.
(** A value some method of str is called on, or that is added to a text. *)
Definition text (e : log_err) (o : option str) : lres str := match o with Some s => LOk s | None => LErr e end.
Definition is_true (s : str) : bool := str_eqb (py_upper U s) (lit "TRUE").

(** What make_logger reads (44-51).  The options are read before anything is done, so the
    order of the errors of missing options is not that of the code: AttributeError of
    LOG_LEVEL (46), CLEAN_LOG_ON_START (80) and LOG_STDOUT (88), TypeError of LOG_NAME
    (58-66); none of them has no default. *)
Record settings : Type := Settings {
  s_file : option str; s_level : Z; s_format : option str; s_name : str; s_dates : option str; s_stdout : bool; s_clean : bool }.
Definition read_settings (service : bool) (sect : str) : lres settings :=
  file <~ conf service (lit "LOG_FILE") sect ;;
  lvl <~ conf service (lit "LOG_LEVEL") sect ;;
  lvl <~ text LAttribute lvl ;;
  fmt <~ conf service (lit "LOG_FORMAT") sect ;;
  name <~ conf service (lit "LOG_NAME") sect ;;
  dates <~ conf service (lit "LOG_DATE_FORMAT") sect ;;
  out <~ conf service (lit "LOG_STDOUT") sect ;;
  clean <~ conf service (lit "CLEAN_LOG_ON_START") sect ;;
  name <~ text LType name ;;
  clean <~ text LAttribute clean ;;
  out <~ text LAttribute out ;;
  LOk (Settings (log_target U dir file) (str_to_log_level U lvl) fmt name dates (is_true out) (is_true clean)).

(** 56-65: a debug message to the log of the services or of the clients, or to ROOT_LOG. *)
Definition announce (service : bool) (name : str) (st : logs) : logs :=
  match (if service then l_service st else l_client st) with
  | Some p => log p 10 (lit (if service then "Adding service logger for " else "Adding client logger for ") ++ child p name) st
  | None => log hgaa 10 (lit (if service then "Adding root service logger " else "Adding root client logger ") ++ child hgaa name) st
  end.
(** 79-91: the handlers; a file that cannot be opened raises before any handler is added. *)
Definition add_handlers (n : str) (s : settings) (st : logs) : logs * lres unit :=
  let out st := if s_stdout s then add_handler n (Handler None (s_format s) (s_dates s)) st else st in
  match s_file s with
  | None => (out st, LOk tt)
  | Some f =>
      if can_open f then (out (add_handler n (Handler (Some f) (s_format s) (s_dates s)) (open_file f (s_clean s) st)), LOk tt)
      else (st, LErr LOpen)
  end.
(** 39-94, make_logger; the result is the name of the logger. *)
Definition make_logger (name : str) (service : bool) (parent : option str) (st : logs) : logs * lres str :=
  match read_settings service (py_upper U name) with
  | LErr e => (st, LErr e)
  | LOk s =>
      let st := announce service (s_name s) st in
      match match parent with Some p => Some p | None => if service then l_service st else l_client st end with
      | None => (st, LErr LAttribute)
      | Some p =>
          let n := child p (s_name s) in
          let st := set_level n (s_level s) (get_logger n st) in
          match add_handlers n s st with
          | (st, LOk _) => (log n 20 (n ++ lit " log started on " ++ now) st, LOk n)
          | (st, LErr e) => (st, LErr e)
          end
      end
  end.

(** 97-118, _make_ladon_log, and 121-141, _make_sql_log: the name of the logger, the section,
    the prefix of the options, the message.  Of the options all but the first are read here
    before the file is opened. *)
Definition make_other (n sect prefix msg : str) (st : logs) : logs * lres unit :=
  let st := adopt n hgaa (get_logger n st) in
  match (lvl <~ conf true (prefix ++ lit "LOG_LEVEL") sect ;; text LAttribute lvl) with
  | LErr e => (st, LErr e)
  | LOk lvl =>
      let st := set_level n (str_to_log_level U lvl) st in
      match (clean <~ conf true (lit "CLEAN_LOG_ON_START") s_default ;;
             clean <~ text LAttribute clean ;;
             file <~ conf true (prefix ++ lit "LOG_FILE") sect ;;
             file <~ text LType file ;;
             fmt <~ conf true (prefix ++ lit "LOG_FORMAT") sect ;;
             dates <~ conf true (prefix ++ lit "LOG_DATE_FORMAT") sect ;;
             out <~ conf true (prefix ++ lit "LOG_STDOUT") sect ;;
             out <~ text LAttribute out ;;
             LOk (Settings (Some (dir ++ file)) 0 fmt [] dates (is_true out) (is_true clean))) with
      | LErr e => (st, LErr e)
      | LOk s =>
          match add_handlers n s st with
          | (st, LOk _) => (log n 20 (msg ++ lit " log started on " ++ now) st, LOk tt)
          | (st, LErr e) => (st, LErr e)
          end
      end
  end.
Definition ladon_log : str := lit "ladonlogger".
Definition sql_log : str := lit "sqlalchemy".
Definition make_ladon_log := make_other ladon_log (lit "LADON") [] (lit "LADON").
Definition make_sql_log := make_other sql_log s_default (lit "SQL_") (lit "SQL").

(** 9-17 and 144-147: importing hgaa.log. *)
Definition fresh (files : list (str * list line)) : logs := Logs [(hgaa, Logger 0 [])] [] None None files [].
Definition start_up (files : list (str * list line)) : logs * lres unit :=
  match make_logger s_default true (Some hgaa) (fresh files) with
  | (st, LErr e) => (st, LErr e)
  | (st, LOk n) =>
      let st := Logs (l_loggers st) (l_adopted st) (Some n) (l_client st) (l_files st) (l_stream st) in
      match make_logger s_default false (Some hgaa) st with
      | (st, LErr e) => (st, LErr e)
      | (st, LOk n) =>
          let st := Logs (l_loggers st) (l_adopted st) (l_service st) (Some n) (l_files st) (l_stream st) in
          match make_sql_log st with
          | (st, LErr e) => (st, LErr e)
          | (st, LOk _) => make_ladon_log st
          end
      end
  end.
End WithConf.

(** ** hgaa/handler.py 17-30: the level given to Ladon, of the texts str_to_log_level knows *)
Definition ladon_level (lvl : Z) : option Z :=
  if lvl =? 10 then Some 6 else if lvl =? 30 then Some 5 else if lvl =? 20 then Some 4
  else if lvl =? 40 then Some 3 else if lvl =? 50 then Some 1 else if lvl =? 0 then Some 0 else None.

(** ** hgaa/confs/services.ini and hgaa/confs/clients.ini as read *)
Definition ini (l : list (string * string)) : options := map (fun '(k, v) => (lit k, lit v)) l.
Definition shipped_services : conf_file := {|
  f_default := ini [("db_type", "mysql"); ("db_name", "hgaa"); ("db_user", "apps"); ("db_pass", "PUTYOURPASSWORDHERE");
    ("db_port", "3306"); ("db_host", "localhost"); ("log_level", "ALL"); ("log_file", "hgaa_service.log");
    ("log_format", "%%(asctime)s:    [%%(levelname)s: %%(name)s]    %%(message)s"); ("log_date_format", "%%Y-%%m-%%d %%I:%%M:%%S %%p");
    ("log_name", "services"); ("log_stdout", "True"); ("sql_log_level", "ALL"); ("sql_log_file", "sql.log");
    ("sql_log_format", "%%(asctime)s:    [%%(levelname)s: %%(name)s]    %%(message)s"); ("sql_log_date_format", "%%Y-%%m-%%d %%I:%%M:%%S %%p");
    ("sql_log_stdout", "True"); ("clean_log_on_start", "True"); ("service_enabled", "True"); ("pass_pepper", "PUTYOURPEPPERHERE")]%string;
  f_sections := [
    (lit "TOOLS", ini [("log_level", "ALL"); ("log_name", "tools"); ("log_file", "None"); ("log_stdout", "False")]%string);
    (lit "LADON", ini [("log_name", "ladon"); ("log_level", "ALL"); ("log_file", "ladon.log");
      ("log_format", "%%(asctime)s:    [%%(levelname)s: %%(name)s]    %%(message)s"); ("log_date_format", "%%Y-%%m-%%d %%I:%%M:%%S %%p");
      ("log_stdout", "True"); ("service_port", "8888"); ("service_host", "")]%string);
    (lit "AAUTH", ini [("log_level", "ALL"); ("log_name", "aauth"); ("log_file", "None"); ("log_stdout", "False"); ("service_enabled", "True");
      ("aauth_id", "localhost"); ("a_uri", "hgabac://localhost:8888"); ("ac_expire_length", "3600"); ("rev_url", "");
      ("key_pass", "PUTYOURPASSWORDHERE"); ("key_file", "keys/aauth_rsa_key.bin")]%string);
    (lit "PAUTH", ini [("log_level", "ALL"); ("log_name", "pauth"); ("log_file", "None"); ("log_stdout", "False"); ("service_enabled", "True");
      ("pauth_name", "localhost"); ("pauth_uid", "hgabac://localhost:8888")]%string)] |}.
Definition shipped_clients : conf_file := {|
  f_default := ini [("log_level", "ALL"); ("log_file", "hgaa_client.log");
    ("log_format", "%%(asctime)s:    [%%(levelname)s: %%(name)s]    %%(message)s"); ("log_date_format", "%%Y-%%m-%%d %%I:%%M:%%S %%p");
    ("log_name", "clients"); ("log_stdout", "True"); ("clean_log_on_start", "True")]%string;
  f_sections := [
    (lit "TOOLS", ini [("log_level", "ALL"); ("log_name", "tools"); ("log_file", "None"); ("log_stdout", "False")]%string);
    (lit "AAUTH", ini [("log_level", "ALL"); ("log_name", "aauth"); ("log_file", "None"); ("log_stdout", "False"); ("client_type", "JSONWSP");
      ("service_description", "http://localhost:8888/AttributeAuthority/jsonwsp/description"); ("cred_type", "0"); ("cred_user", "Dan");
      ("cred_pass", "admin"); ("key_size", "2048")]%string);
    (lit "PAUTH", ini [("log_level", "ALL"); ("log_name", "aauth"); ("log_file", "None"); ("log_stdout", "False"); ("client_type", "JSONWSP");
      ("service_description", "http://localhost:8888/PolicyAuthority/jsonwsp/description")]%string)] |}.
