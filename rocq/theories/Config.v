(** * Config: model of hgaa/config.py, of the parts of hgaa/log.py and hgaa/database.py that
    only depend on the configuration, and of configparser's lookup and interpolation *)

From Coq Require Import NArith ZArith List Bool String.
From Verif Require Import PyBase.
Import ListNotations.
Open Scope N_scope.

(** A parsed configuration file (configparser.ConfigParser with its default options): the
    [DEFAULT] options and the other sections, each a map from option names, lower-cased when
    the file was read, to texts. Reading the file is not modelled. *)
Definition options := list (str * str).
Record conf_file : Type := { f_default : options; f_sections : list (str * options) }.

Fixpoint assoc {A} (k : str) (l : list (str * A)) : option A :=
  match l with
  | [] => None
  | (x, v) :: r => if str_eqb x k then Some v else assoc k r
  end.

(** configparser.InterpolationSyntaxError, InterpolationMissingOptionError,
    InterpolationDepthError; [CFuel] stands for a fuel too small, which never happens. *)
Inductive conf_err : Type := CSyntax | CMissing | CDepth | CFuel.
Inductive cres (A : Type) : Type := CVal (a : A) | CErr (e : conf_err).
Arguments CVal {A}. Arguments CErr {A}.

(** ** BasicInterpolation (configparser) *)

Definition pct : N := 37. (* % *)
Definition lpar : N := 40.
Definition rpar : N := 41.
Definition ess : N := 115.

(** The pieces of a text as the loop of _interpolate_some meets them: text, a reference to an
    option, or a syntax error. *)
Inductive piece : Type := PText (s : str) | PRef (name : str) | PBad.

(** [re.match('%\(([^)]+)\)s', rest)] after the "%(": the name up to the first ')', and what
    follows the 's'. *)
Fixpoint ref_name (s : str) : option (str * str) :=
  match s with
  | [] => None
  | c :: r =>
      if c =? rpar then match r with x :: r' => if x =? ess then Some ([], r') else None | [] => None end
      else match ref_name r with Some (n, r') => Some (c :: n, r') | None => None end
  end.
Definition key_match (s : str) : option (str * str) :=
  match ref_name s with Some ([], _) => None | x => x end.

Fixpoint pieces (fuel : nat) (s : str) : list piece :=
  match fuel with
  | O => [PBad]
  | S fuel =>
      match s with
      | [] => []
      | c :: r =>
          if c =? pct then
            match r with
            | d :: r' =>
                if d =? pct then PText [pct] :: pieces fuel r'
                else if d =? lpar then
                  match key_match r' with
                  | Some (n, r'') => PRef n :: pieces fuel r''
                  | None => [PBad]
                  end
                else [PBad]
            | [] => [PBad]
            end
          else PText [c] :: pieces fuel r
      end
  end.
Definition pieces_of (s : str) : list piece := pieces (S (List.length s)) s.

Section interp.
Context (U : unicode) (env : str -> option str).

(** _interpolate_some with [depth] more levels allowed; [env] is the option map and option
    names are lower-cased (optionxform). *)
Fixpoint interpolate (depth : nat) (s : str) : cres str :=
  match depth with
  | O => CErr CDepth
  | S depth =>
      (fix go (l : list piece) : cres str :=
         match l with
         | [] => CVal []
         | PBad :: _ => CErr CSyntax
         | PText t :: r => match go r with CVal x => CVal (t ++ x) | e => e end
         | PRef n :: r =>
             match env (py_lower U n) with
             | None => CErr CMissing
             | Some v =>
                 match (if existsb (N.eqb pct) v then interpolate depth v else CVal v) with
                 | CVal y => match go r with CVal x => CVal (y ++ x) | e => e end
                 | e => e
                 end
             end
         end) (pieces_of s)
  end.
End interp.

(** MAX_INTERPOLATION_DEPTH *)
Definition max_depth : nat := 10.

(** ** Lookup (ConfigParser.get with fallback None) *)

(** The ChainMap of _unify_values: the section first, then [DEFAULT]. *)
Definition chain (sect : options) (F : conf_file) (key : str) : option str :=
  match assoc key sect with Some v => Some v | None => assoc key (f_default F) end.

(** SectionProxy.get(option, None) *)
Definition conf_get (U : unicode) (F : conf_file) (sect : options) (opt : str) : cres (option str) :=
  let key := py_lower U opt in
  match chain sect F key with
  | None => CVal None
  | Some v => match interpolate U (chain sect F) max_depth v with CVal x => CVal (Some x) | CErr e => CErr e end
  end.

Definition s_default : str := lit "DEFAULT".

(** hgaa/config.py 56-87, get_conf; [B] is DEFAULT_SERVICE_CONFIGS or DEFAULT_CLIENT_CONFIGS,
    [F] the corresponding file. *)
Fixpoint get_conf_at (fuel : nat) (U : unicode) (F : conf_file) (B : list (str * option str))
    (val_name sect : str) : cres (option str) :=
  match fuel with
  | O => CErr CFuel
  | S fuel =>
      let val_name := py_upper U val_name in
      let sect := py_upper U sect in
      let '(sect, conf) := match assoc sect (f_sections F) with
                           | Some o => (sect, o)
                           | None => (s_default, [])
                           end in
      match conf_get U F conf val_name with
      | CErr e => CErr e
      | CVal (Some v) => CVal (Some v)
      | CVal None =>
          if str_eqb sect s_default then
            CVal (match assoc val_name B with Some v => v | None => None end)
          else get_conf_at fuel U F B val_name s_default
      end
  end.
Definition get_conf := get_conf_at 2.

(** hgaa/config.py 8-30 *)
Definition service_defaults : list (str * option str) := [
  (lit "DB_TYPE", Some (lit "mysql")); (lit "DB_NAME", Some (lit "hgaa")); (lit "DB_USER", None);
  (lit "DB_PASS", None); (lit "DB_PORT", Some (lit "3306")); (lit "DB_HOST", Some (lit "localhost"));
  (lit "LOG_LEVEL", Some (lit "ALL")); (lit "LOG_FILE", Some (lit "hgaa_service.log"));
  (lit "LOG_FORMAT", Some (lit "%(asctime)s: [%(levelname)s: %(name)s] %(message)s"));
  (lit "LOG_DATE_FORMAT", Some (lit "%m/%d/%Y %I:%M:%S %p")); (lit "LOG_NAME", Some (lit "services"));
  (lit "LOG_STDOUT", Some (lit "True")); (lit "SQL_LOG_LEVEL", Some (lit "ALL"));
  (lit "SQL_LOG_FILE", Some (lit "sql.log"));
  (lit "SQL_LOG_FORMAT", Some (lit "%(asctime)s: [%(levelname)s: %(name)s] %(message)s"));
  (lit "SQL_LOG_DATE_FORMAT", Some (lit "%m/%d/%Y %I:%M:%S %p")); (lit "SQL_LOG_STDOUT", Some (lit "True"));
  (lit "CLEAN_LOG_ON_START", Some (lit "True")); (lit "SERVICE_ENABLED", Some (lit "True"));
  (lit "SERVICE_PORT", Some (lit "8888")); (lit "SERVICE_HOST", Some [])].

(** hgaa/config.py 32-40 *)
Definition client_defaults : list (str * option str) := [
  (lit "LOG_LEVEL", Some (lit "ALL")); (lit "LOG_FILE", Some (lit "hgaa_client.log"));
  (lit "LOG_FORMAT", Some (lit "%(asctime)s: [%(levelname)s: %(name)s] %(message)s"));
  (lit "LOG_DATE_FORMAT", Some (lit "%m/%d/%Y %I:%M:%S %p")); (lit "LOG_NAME", Some (lit "clients"));
  (lit "LOG_STDOUT", Some (lit "True")); (lit "CLEAN_LOG_ON_START", Some (lit "False"))].

(** ** Logging *)

(** hgaa/log.py 20-36; the numbers are logging's DEBUG, WARN, INFO, ERROR, CRITICAL, NOTSET. *)
Definition str_to_log_level (U : unicode) (s : str) : Z :=
  let s := py_upper U s in
  if str_eqb s (lit "ALL") || str_eqb s (lit "DEBUG") then 10
  else if str_eqb s (lit "WARN") || str_eqb s (lit "WARNING") then 30
  else if str_eqb s (lit "INFO") || str_eqb s (lit "INFORMATION") then 20
  else if str_eqb s (lit "ERROR") then 40
  else if str_eqb s (lit "CRITICAL") then 50
  else 0.

(** hgaa/log.py 53-54 and 79-86, the file a logger writes to; [dir] is LOG_DIR. *)
Definition log_target (U : unicode) (dir : str) (file : option str) : option str :=
  let file := match file with
              | None => None
              | Some f =>
                  if negb (str_eqb (py_lower U f) (lit "none")) && negb (str_eqb (py_lower U f) (lit "false"))
                     && negb (str_eqb f []) then Some (dir ++ f) else Some f
              end in
  match file with
  | None => None
  | Some f => if negb (str_eqb (py_upper U f) (lit "NONE")) && negb (str_eqb (py_upper U f) (lit "FALSE"))
              then Some f else None
  end.

(** ** Database engines *)

(** [str.format] of a text or None *)
Definition show (o : option str) : str := match o with Some s => s | None => lit "None" end.

(** hgaa/database.py 69-78, the connection text of get_engine *)
Definition connection (U : unicode) (dbtype : str) (user pass host port name : option str) : option str :=
  let t := py_upper U dbtype in
  if str_eqb t (lit "MYSQL") then
    Some (lit "mysql+mysqlconnector://" ++ show user ++ lit ":" ++ show pass ++ lit "@" ++ show host ++
          lit ":" ++ show port ++ lit "/" ++ show name)
  else if str_eqb t (lit "SQLITE") then Some (lit "sqlite:///" ++ show name ++ lit ".db")
  else if str_eqb t (lit "MEMORY") then Some (lit "sqlite://")
  else None.
